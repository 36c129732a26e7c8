(* The theorems about the linked library, for the text. *)
From Coq Require Import ZArith List Bool String.
From Verif Require Import Machine.
From Verif.Model Require Import Tables.
From Verif.Cxx Require Import Syntax Semantics Program Values Linked FromText.
From Verif.Spec Require Import Utf Linked Safe.
From Verif.Proof Require Import CxxEndToEnd CxxWhole CxxSafe CxxText.
Import ListNotations.
Local Open Scope string_scope.
Local Open Scope list_scope.
Local Open Scope Z_scope.

Lemma text_once I v f args r r' : text_runs_to I v f args r -> text_runs_to I v f args r' -> r = r'.
Proof. rewrite !text_runs. apply l_once. Qed.

Lemma text_safe I v f args : call_of I f args -> exists r, text_runs_to I v f args (Done r).
Proof. intros H. destruct (safe I v f args H) as [r Hr]. exists r. now apply text_runs. Qed.

Lemma text_safe_edits I v f args : edit_of f args -> exists r, text_leaves I v f args (Done r).
Proof. intros H. destruct (safe_edits I v f args H) as [r Hr]. exists r. now apply text_left. Qed.

Lemma text_string I v f t s r : runs_to I (tables v) f [VS t s] (Done r) -> text_runs_to I v f [VS t s] (Done r).
Proof. intros H. apply text_runs, l_transfer; [now repeat constructor | discriminate | exact H]. Qed.

Lemma text_round_trips I v :
  (forall s, Forall encodable8 s ->
     exists bs, text_runs_to I v "toUtf8" [VS Char32 s] (Done (VS Char bs)) /\ text_runs_to I v "toUcs4" [VS Char bs] (Done (VS Char32 s))) /\
  (forall s, Forall scalar s ->
     exists us, text_runs_to I v "toUtf16" [VS Char32 s] (Done (VS Char16 us)) /\ text_runs_to I v "toUcs4" [VS Char16 us] (Done (VS Char32 s))) /\
  (forall cs, Forall scalar cs ->
     exists bs, text_runs_to I v "toUtf8" [VS Char16 (flat_map utf16_units cs)] (Done (VS Char bs)) /\
       text_runs_to I v "toUtf16" [VS Char bs] (Done (VS Char16 (flat_map utf16_units cs)))).
Proof.
  destruct (e_round I (tables v)) as (A & B & C).
  split; [|split]; intros s H; [destruct (A s H) as (x & H1 & H2) | destruct (B s H) as (x & H1 & H2) | destruct (C s H) as (x & H1 & H2)];
    exists x; split; now apply text_string.
Qed.
