(* The results of the conversions are made of units of their type. *)
From Coq Require Import ZArith List Bool Lia.
From Verif Require Import Machine.
From Verif.Model Require Import Internal Decode Str.
From Verif.Cxx Require Import Syntax Semantics Program Values.
From Verif.Proof Require Import Bits ToFuncs CxxTools CxxDecode CxxPred CxxHelpers.
Import ListNotations.
Local Open Scope Z_scope.

Definition gives {A} (P : A -> Prop) (o : outcome A) : Prop := match o with Done x => P x | _ => True end.

Lemma incr_suffix arr p q : suffix p arr -> incr p = Done q -> suffix q arr.
Proof. destruct p as [|x p]; [discriminate|]. cbn. intros H [= <-]. exact (suffix_tail _ _ _ H). Qed.

Lemma from8_range (P : Z -> Prop) bad enc arr : Forall byte arr ->
  (forall c, 0 <= c < 0x100000000 -> bad c = false -> Forall P (enc c)) ->
  forall fuel p r, suffix p arr -> Forall P r -> gives (Forall P) (from8_loop bad enc fuel p r).
Proof.
  intros Ha He. induction fuel as [|fuel IH]; intros p r Hs Hr; [exact Logic.I|].
  cbn [from8_loop]. destruct (deref p) as [u| |] eqn:Ed; [|exact Logic.I|exact Logic.I]. cbn [bind].
  destruct (u =? 0); [exact Hr|].
  pose proof (decode_lands arr p Hs Ha) as L. destruct (decodeUtf8 p) as [[c [|q]]| |]; try exact Logic.I; cbn [bind].
  - constructor.
  - destruct L as (Hc & Hq & _). destruct (bad c) eqn:Eb; [constructor|]. destruct (c =? 0); [exact Hr|].
    destruct (incr q) as [q'| |] eqn:Ei; try exact Logic.I. cbn [bind].
    apply IH; [exact (incr_suffix _ _ _ Hq Ei)|]. apply Forall_app. split; [assumption | now apply He].
Qed.

Lemma c_str_bytes (P : Z -> Prop) s : P 0 -> Forall P s -> Forall P (s ++ [0]).
Proof. intros H0 Hs. apply Forall_app. split; [assumption | now constructor]. Qed.

Lemma start_range (P : Z -> Prop) s (f : list Z -> outcome (list Z)) :
  (forall p, gives (Forall P) (f p)) -> gives (Forall P) (Str.convert (c_str s) f).
Proof.
  intros H. unfold Str.convert, c_str. destruct (deref (s ++ [0])); try exact Logic.I. cbn [bind].
  destruct (_ =? 0); [constructor | apply H].
Qed.
Lemma start_range_of (P Q : Z -> Prop) s (f : list Z -> outcome (list Z)) : Q 0 -> Forall Q s ->
  (Forall Q (s ++ [0]) -> gives (Forall P) (f (s ++ [0]))) -> gives (Forall P) (Str.convert (c_str s) f).
Proof.
  intros H0 Hs H. specialize (H (c_str_bytes _ _ H0 Hs)). unfold Str.convert, c_str.
  destruct (deref (s ++ [0])); try exact Logic.I. cbn [bind]. destruct (_ =? 0); [constructor | apply H].
Qed.

Lemma raw_encode_units c : 0 <= c < 0x100000000 -> Forall unit16 (rawEncodeUtf16 c).
Proof.
  intros H. unfold rawEncodeUtf16, unit16, wrap16.
  repeat match goal with |- context [if ?b then _ else _] => destruct b eqn:? end; repeat constructor; lia.
Qed.

Lemma toUcs4_8_units s : Forall byte s -> gives (Forall unit32) (toUcs4_8_string s).
Proof.
  intros H. unfold toUcs4_8_string, toUcs4_8. apply (start_range_of _ byte); [red; lia | exact H|]. intros Ha.
  rewrite toUcs4_8_loop_eq. apply (from8_range _ _ _ _ Ha); [|apply suffix_refl|constructor].
  intros c Hc _. now constructor.
Qed.
Lemma toUtf16_8_units s : Forall byte s -> gives (Forall unit16) (toUtf16_8_string s).
Proof.
  intros H. unfold toUtf16_8_string, toUtf16_8. apply (start_range_of _ byte); [red; lia | exact H|]. intros Ha.
  rewrite toUtf16_8_loop_eq. apply (from8_range _ _ _ _ Ha); [|apply suffix_refl|constructor].
  intros c Hc _. now apply raw_encode_units.
Qed.

Lemma toUcs4_16_range n : forall p r, (length p <= n)%nat -> Forall unit16 p -> Forall unit32 r ->
  gives (Forall unit32) (toUcs4_16_loop p r).
Proof.
  induction n as [|n IH]; intros p r Hn Hp Hr; destruct p as [|c p]; try exact Logic.I; [cbn in Hn; lia|].
  cbn [toUcs4_16_loop length] in *. pose proof (Forall_inv Hp) as Hc. pose proof (Forall_inv_tail Hp) as Hp'. red in Hc.
  destruct (c =? 0); [exact Hr|]. destruct (isFirstHalfUtf16 c).
  - destruct p as [|c1 p]; [exact Logic.I|]. cbn [length] in Hn. destruct (c1 =? 0); [exact Hr|].
    destruct (negb _); [constructor|]. apply IH; [lia | exact (Forall_inv_tail Hp')|]. apply Forall_app. split; [assumption|].
    constructor; [|constructor]. red. unfold rawDecodeUtf16, wrap32. lia.
  - destruct (isSecondHalfUtf16 c); [constructor|]. apply IH; [lia | assumption|]. apply Forall_app. split; [assumption|].
    constructor; [|constructor]. red. lia.
Qed.
Lemma toUcs4_16_units s : Forall unit16 s -> gives (Forall unit32) (toUcs4_16_string s).
Proof.
  intros H. unfold toUcs4_16_string, toUcs4_16. apply (start_range_of _ unit16); [red; lia | exact H|]. intros Ha.
  apply (toUcs4_16_range (length (s ++ [0]))); [lia | assumption | constructor].
Qed.
