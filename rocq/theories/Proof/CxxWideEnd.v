(* What the parsed source of the wchar_t functions does, in terms of the specification, in every configuration. *)
From Coq Require Import ZArith List Bool String Lia.
From Verif Require Import Machine.
From Verif.Model Require Import Tables Internal Predicate Decode Str Wide Tchar.
From Verif.Cxx Require Import Syntax Semantics Configurations Program Values Linked.
From Verif.Spec Require Import Utf Target Result Source Linked WideSource.
From Verif.Proof Require Import Bits Calls MemoryWitness TextFacts LengthFuncs ToFuncs IsFuncs Consequences Round Lenient Witness WideFacts TcharFacts CxxTools CxxMono CxxAnswers CxxResults CxxEndToEnd CxxMore CxxRest CxxWides CxxWide16 CxxWides16 CxxWhole.
Import ListNotations.
Local Open Scope string_scope.
Local Open Scope list_scope.
Local Open Scope Z_scope.

Lemma copies_reads (P : Prop) us m : (P -> m = Done us) -> (~ P -> m = Done []) ->
  exact_conversion (fun cs => cs = us /\ P) (fun cs => cs) m.
Proof.
  intros G B. split.
  - intros cs [-> H]. exact (G H).
  - intros H. apply B. intros K. exact (H us (conj eq_refl K)).
Qed.
Lemma copies_32 us m : (Forall (range_isUcs4 Utf16) us -> m = Done us) -> (~ Forall (range_isUcs4 Utf16) us -> m = Done []) ->
  exact_conversion (fun cs => cs = us /\ Forall (range_isUcs4 Utf16) cs) (fun cs => cs) m.
Proof.
  intros G B. split.
  - intros cs [-> H]. exact (G H).
  - intros H. apply B. intros K. exact (H us (conj eq_refl K)).
Qed.

Section Ends.
Context (I : implementation) (T : UnicodeTables).

Lemma e_wide32 : configured I = Wchar32 -> forall us, text32 us ->
  call_answers I T "isUtf8" [VS WChar32 us] (Forall (range_isUcs4 Utf16) us) /\
  call_answers I T "isUtf16" [VS WChar32 us] (Forall (range_isUcs4 Utf16) us) /\
  call_answers I T "isUcs2" [VS WChar32 us] (Forall bmp us) /\
  call_answers I T "isUcs4" [VS WChar32 us] (Forall (range_isUcs4 Utf16) us) /\
  call_converts I T "toUtf8" [VS WChar32 us] Char (fun cs => cs = us /\ Forall encodable8 cs) (flat_map utf8_bytes) /\
  call_converts I T "toUtf16" [VS WChar32 us] Char16 (fun cs => cs = us /\ Forall scalar cs) (flat_map utf16_units) /\
  call_converts I T "toUcs2" [VS WChar32 us] Char16 (fun cs => cs = us /\ Forall bmp cs) (fun cs => cs) /\
  call_converts I T "toUcs4" [VS WChar32 us] Char32 (fun cs => cs = us /\ Forall (range_isUcs4 Utf16) cs) (fun cs => cs).
Proof.
  intros C us Ht. pose proof (text32_units us Ht) as Hu.
  destruct (all_wide_checks I T C) as (_ & A1 & _ & A2 & _ & A3 & _ & A4).
  destruct (all_wide_conversions I T C) as (_ & B1 & _ & B2 & _ & B3 & _ & B4).
  destruct (w32_checks T us [] Ht) as (K1 & K2 & K3 & K4). destruct (w32_to us [] Ht) as (L1 & L2 & L3).
  destruct (w32_copies T us [] Ht) as (G & B).
  parts.
  - exact (answering _ _ _ _ _ _ (A1 us Hu) K1).
  - exact (answering _ _ _ _ _ _ (A2 us Hu) K2).
  - exact (answering _ _ _ _ _ _ (A3 us Hu) K4).
  - exact (answering _ _ _ _ _ _ (A4 us Hu) K3).
  - exact (converts _ _ _ _ _ _ _ _ (B1 us Hu) (encodes_reads _ _ _ _ L1)).
  - exact (converts _ _ _ _ _ _ _ _ (B2 us Hu) (encodes_reads _ _ _ _ L2)).
  - exact (converts _ _ _ _ _ _ _ _ (B3 us Hu) (encodes_reads_one _ _ _ L3)).
  - refine (converts _ _ _ _ _ _ _ _ (B4 us Hu) (copies_32 us _ _ _)); intros; [now apply G | now apply B].
Qed.

Lemma e_to_wide32 : configured I = Wchar32 ->
  (forall bs, text8 bs -> call_converts I T "toWstring" [VS Char bs] WChar32 (fun cs => reads_as cs bs) (fun cs => cs)) /\
  (forall us, text16 us -> call_converts I T "toWstring" [VS Char16 us] WChar32 (fun cs => reads_as16 cs us) (fun cs => cs)) /\
  (forall us, text32 us -> call_converts I T "toWstring" [VS Char32 us] WChar32 (fun cs => cs = us /\ Forall (range_isUcs4 Utf16) cs) (fun cs => cs)).
Proof.
  intros C. destruct (all_toWstring I T C) as (_ & A1 & _ & A2 & _ & A3). parts; intros s Hs.
  - exact (converts _ _ _ _ _ _ _ _ (A1 s (text8_bytes s Hs)) (w32_from8 s [] Hs)).
  - exact (converts _ _ _ _ _ _ _ _ (A2 s (text16_units s Hs)) (w32_from16 s [] Hs)).
  - destruct (w32_copies T s [] Hs) as (G & B).
    refine (converts _ _ _ _ _ _ _ _ (A3 s (text32_units s Hs)) (copies_32 s _ _ _)); intros; [now apply G | now apply B].
Qed.

Lemma e_wide16 : wide16 (configured I) = true -> forall us, text16 us ->
  call_answers I T "isUtf8" [VS WChar16 us] (exists cs, reads_as16 cs us) /\
  call_answers I T "isUtf16" [VS WChar16 us] (exists cs, reads_as16 cs us) /\
  call_answers I T "isUcs2" [VS WChar16 us] (Forall bmp us) /\
  call_answers I T "isUcs4" [VS WChar16 us] (exists cs, reads_as16 cs us) /\
  call_converts I T "toUtf8" [VS WChar16 us] Char (fun cs => lenient_as16 cs us) (flat_map utf8_bytes) /\
  call_converts I T "toUtf16" [VS WChar16 us] Char16 (fun x => x = us /\ exists cs, reads_as16 cs us) (fun x => x) /\
  call_converts I T "toUcs2" [VS WChar16 us] Char16 (fun cs => cs = us /\ Forall bmp cs) (fun cs => cs) /\
  call_converts I T "toUcs4" [VS WChar16 us] Char32 (fun cs => reads_as16 cs us) (fun cs => cs).
Proof.
  intros C us Ht. pose proof (text16_units us Ht) as Hu.
  destruct (all_checks16 I T C) as (_ & A1 & _ & A2 & _ & A3 & _ & A4).
  destruct (all_conversions16 I T C) as (_ & B1 & _ & B2 & _ & B3 & _ & B4).
  destruct (w16_checks T us [] Ht) as (K1 & K2 & K3 & K4). destruct (w16_to us [] Ht) as (L1 & L2).
  destruct (w16_copies T us [] Ht) as (G & B).
  parts.
  - exact (answering _ _ _ _ _ _ (A1 us Hu) K1).
  - exact (answering _ _ _ _ _ _ (A2 us Hu) K2).
  - exact (answering _ _ _ _ _ _ (A3 us Hu) K4).
  - exact (answering _ _ _ _ _ _ (A4 us Hu) K3).
  - exact (converts _ _ _ _ _ _ _ _ (B1 us Hu) L1).
  - refine (converts _ _ _ _ _ _ _ _ (B2 us Hu) (copies_reads _ us _ _ _)); intros H; [now apply G | apply B; intros cs K; apply H; now exists cs].
  - exact (converts _ _ _ _ _ _ _ _ (B3 us Hu) (encodes_reads_one _ _ _ (w16_ucs2 T us [] Ht))).
  - exact (converts _ _ _ _ _ _ _ _ (B4 us Hu) L2).
Qed.

Lemma e_to_wide16 : wide16 (configured I) = true ->
  (forall bs, text8 bs -> call_converts I T "toWstring" [VS Char bs] WChar16 (fun cs => reads_as cs bs /\ Forall upto cs) (flat_map utf16_units)) /\
  (forall us, text16 us -> call_converts I T "toWstring" [VS Char16 us] WChar16 (fun x => x = us /\ exists cs, reads_as16 cs us) (fun x => x)) /\
  (forall us, text32 us -> call_converts I T "toWstring" [VS Char32 us] WChar16 (fun cs => cs = us /\ Forall scalar cs) (flat_map utf16_units)).
Proof.
  intros C. destruct (all_toWstring16 I T C) as (_ & A1 & _ & A2 & _ & A3). parts; intros s Hs.
  - exact (converts _ _ _ _ _ _ _ _ (A1 s (text8_bytes s Hs)) (w16_from8 s [] Hs)).
  - destruct (w16_copies T s [] Hs) as (G & B).
    refine (converts _ _ _ _ _ _ _ _ (A2 s (text16_units s Hs)) (copies_reads _ s _ _ _)); intros H; [now apply G | apply B; intros cs K; apply H; now exists cs].
  - exact (converts _ _ _ _ _ _ _ _ (A3 s (text32_units s Hs)) (encodes_reads _ _ _ _ (w16_from32 s [] Hs))).
Qed.
End Ends.

(* there and back, in every configuration *)
Lemma e_wide_round I T cs : Forall scalar cs -> let c := configured I in let w := VS (wchar c) (wide_text c cs) in
  (exists bs, runs_to I T "toUtf8" [w] (Done (VS Char bs)) /\ runs_to I T "toWstring" [VS Char bs] (Done w)) /\
  (exists us, runs_to I T "toUtf16" [w] (Done (VS Char16 us)) /\ runs_to I T "toWstring" [VS Char16 us] (Done w)) /\
  runs_to I T "toUcs4" [w] (Done (VS Char32 cs)) /\ runs_to I T "toWstring" [VS Char32 cs] (Done w).
Proof.
  intros H c w. pose proof (scalars_encodable8 cs H) as H8. pose proof (enc_text32 cs H8) as H32. pose proof (text16_flat cs H) as H16.
  pose proof (text8_flat cs H8) as T8. pose proof (utf16_text_reads _ _ (utf16_text_flat cs H)) as R16.
  pose proof (reads_as_text _ _ (utf8_text_flat cs H8)) as R8.
  assert (U : Forall (range_isUcs4 Utf16) cs) by (eapply Forall_impl; [|exact H]; unfold scalar, range_isUcs4; intros x (B & N); split; [lia | exact N]).
  destruct (wide16 c) eqn:C.
  - destruct (e_wide16 I T C _ H16) as (_ & _ & _ & _ & A1 & A2 & _ & A3). destruct (e_to_wide16 I T C) as (B1 & B2 & B3).
    assert (W : w = VS WChar16 (flat_map utf16_units cs)) by (unfold w; destruct c; [discriminate | reflexivity ..]). rewrite W.
    split; [|split; [|split]].
    + exists (flat_map utf8_bytes cs). split; [apply (proj1 A1 cs); now apply reads_lenient | apply (proj1 (B1 _ T8) cs)].
      split; [exact R8 | eapply Forall_impl; [|exact H]; unfold scalar, upto; cbn; lia].
    + exists (flat_map utf16_units cs). split; [apply (proj1 A2 (flat_map utf16_units cs)) | apply (proj1 (B2 _ H16) (flat_map utf16_units cs))];
        (split; [reflexivity | now exists cs]).
    + exact (proj1 A3 cs R16).
    + apply (proj1 (B3 _ H32) cs). split; [reflexivity | exact H].
  - assert (C' : configured I = Wchar32) by (fold c; destruct c; [reflexivity | discriminate ..]).
    destruct (e_wide32 I T C' _ H32) as (_ & _ & _ & _ & A1 & A2 & _ & A3). destruct (e_to_wide32 I T C') as (B1 & B2 & B3).
    assert (W : w = VS WChar32 cs) by (unfold w; unfold c; rewrite C'; reflexivity). rewrite W.
    split; [|split; [|split]].
    + exists (flat_map utf8_bytes cs). split; [apply (proj1 A1 cs); now split | now apply (proj1 (B1 _ T8) cs)].
    + exists (flat_map utf16_units cs). split; [apply (proj1 A2 cs); now split | now apply (proj1 (B2 _ H16) cs)].
    + apply (proj1 A3 cs). now split.
    + apply (proj1 (B3 _ H32) cs). now split.
Qed.
Lemma l_wide_round I v cs : Forall scalar cs -> let c := configured I in let w := VS (wchar c) (wide_text c cs) in
  (exists bs, linked_runs_to I v "toUtf8" [w] (Done (VS Char bs)) /\ linked_runs_to I v "toWstring" [VS Char bs] (Done w)) /\
  (exists us, linked_runs_to I v "toUtf16" [w] (Done (VS Char16 us)) /\ linked_runs_to I v "toWstring" [VS Char16 us] (Done w)) /\
  linked_runs_to I v "toUcs4" [w] (Done (VS Char32 cs)) /\ linked_runs_to I v "toWstring" [VS Char32 cs] (Done w).
Proof.
  intros H c w. destruct (e_wide_round I (tables v) cs H) as ((bs & A & B) & (us & C & D) & E & F).
  assert (L : forall f x r, runs_to I (tables v) f [x] (Done r) -> in_range I x -> linked_runs_to I v f [x] (Done r))
    by (intros; apply l_runs; [repeat constructor; assumption | discriminate | assumption]).
  split; [exists bs; split | split; [exists us; split | split]]; apply L; first [assumption | exact Logic.I].
Qed.

(* ---------------------------------------------------------------- toTstring of strings *)

Lemma e_tstring_unicode I T : configured I = Win32_unicode -> let same t s := exists l,
    runs_to I T "toTstring" [VS t s] (Done (VS WChar16 l)) /\ runs_to I T "toTstring" [VP t (PAt (s ++ [0]) 0)] (Done (VS WChar16 l)) in
  (forall s, text8 s -> same Char s) /\ (forall s, text16 s -> same Char16 s) /\ (forall s, text32 s -> same Char32 s).
Proof.
  intros C same. unfold same. clear same.
  destruct (all_unicode I T C) as (_ & _ & _ & _ & _ & _ & A1 & B1 & A2 & B2 & A3 & B3).
  assert (W : forall t s, VP t (PAt (s ++ [0]) 0) = vptr t (s ++ [0]) (c_str s)) by (intros t s; unfold vptr, c_str, into; now rewrite Z.sub_diag).
  assert (F : forall (P : Z -> Prop) s, P 0 -> Forall P s -> points_into P (s ++ [0]) (c_str s))
    by (intros P s P0 H; split; [exists []; reflexivity | apply Forall_app; split; [exact H | now constructor]]).
  parts; intros s Hs; destruct (unicode_strings s) as (E8 & E16 & E32).
  - pose proof (text8_bytes s Hs) as H. destruct (proj1 settled_to s Hs) as (_ & (x & K) & _). destruct (basic_string_returns x) as (l & L).
    assert (R : unicode_toTstring_8 (c_str s) = Done l) by (unfold unicode_toTstring_8, c_str; rewrite K; exact L).
    exists l. change (Done (VS WChar16 l)) with (string_of WChar16 (Done l)). rewrite <- R. split; [rewrite <- E8; apply B1, H | rewrite W; apply A1, F; [split; reflexivity || discriminate | exact H]].
  - pose proof (text16_units s Hs) as H. destruct (basic_string_returns s) as (l & L).
    assert (R : unicode_toTstring_16 (c_str s) = Done l) by exact L.
    exists l. change (Done (VS WChar16 l)) with (string_of WChar16 (Done l)). rewrite <- R. split; [rewrite <- E16; apply B2 | rewrite W; apply A2, F; [split; reflexivity || discriminate | exact H]].
  - pose proof (text32_units s Hs) as H. destruct (proj2 (proj2 settled_to) s Hs) as (_ & (x & K) & _). destruct (basic_string_returns x) as (l & L).
    assert (R : unicode_toTstring_32 (c_str s) = Done l) by (unfold unicode_toTstring_32, c_str; rewrite K; exact L).
    exists l. change (Done (VS WChar16 l)) with (string_of WChar16 (Done l)). rewrite <- R. split; [rewrite <- E32; apply B3, H | rewrite W; apply A3, F; [split; reflexivity || discriminate | exact H]].
Qed.

Lemma e_tstring_mbcs I T t s fuel depth : configured I = Win32_mbcs -> In t [Char; Char16; Char32] ->
  call I T fuel depth "toTstring" [VS t s] = OutOfFuel.
Proof. intros C [<-|[<-|[<-|[]]]]; [now apply never_8 | now apply never_16 | now apply never_32]. Qed.
Lemma e_tstring_refuted : exists I T s, configured I = Win32_mbcs /\
  runs_to I T "toTstring" [VP Char16 (PAt (s ++ [0]) 0)] (Done (VS Char s)) /\ s <> [] /\
  forall r, r <> OutOfFuel -> ~ runs_to I T "toTstring" [VS Char16 s] r.
Proof.
  exists (machine true Win32_mbcs), (tables V16), [0x41; 0x42]. split; [reflexivity|]. split; [|split; [discriminate|]].
  - apply (runs_from _ _ 20 10); [vm_compute; discriminate | vm_compute; reflexivity].
  - intros r Hr (n & H). specialize (H n n (le_n n) (le_n n)). rewrite e_tstring_mbcs in H; [|reflexivity | right; left; reflexivity].
    cbn [bind] in H. congruence.
Qed.
