(* What the parsed source does, in terms of the specification: the theorems about the model carried over. *)
From Coq Require Import ZArith List Bool String Lia.
From Verif Require Import Machine.
From Verif.Model Require Import Tables Internal Predicate Decode Str Sugar.
From Verif.Spec Require Import Utf Target Result Source.
From Verif.Cxx Require Import Syntax Semantics Program Values.
From Verif.Proof Require Import Calls MemoryWitness TextFacts LengthFuncs ToFuncs IsFuncs Consequences Round Lenient Witness CxxMono CxxAnswers CxxResults.
Import ListNotations.
Local Open Scope string_scope.
Local Open Scope list_scope.
Local Open Scope Z_scope.

Lemma text8_bytes bs : text8 bs -> Forall byte bs.
Proof. apply Forall_impl. intros b H. red. lia. Qed.
Lemma text16_units us : text16 us -> Forall unit16 us.
Proof. apply Forall_impl. intros b H. red. lia. Qed.
Lemma text32_units us : text32 us -> Forall unit32 us.
Proof. apply Forall_impl. intros b H. red. lia. Qed.

Lemma converts I T f args t m reads enc :
  runs_to I T f args (string_of t m) -> exact_conversion reads enc m -> call_converts I T f args t reads enc.
Proof. intros R [G B]. split; intros; [rewrite (G cs) in R by assumption | rewrite B in R by assumption]; exact R. Qed.

Lemma encodes_reads P enc us m : encodes_or_empty P enc us m ->
  exact_conversion (fun cs => cs = us /\ Forall P cs) (flat_map enc) m.
Proof.
  intros [G B]. split.
  - intros cs [-> H]. exact (G H).
  - intros H. apply B. intros F. exact (H us (conj eq_refl F)).
Qed.
Lemma flat_single us : flat_map (fun c : Z => [c]) us = us.
Proof. induction us as [|u us IH]; [reflexivity|]. cbn. now rewrite IH. Qed.
Lemma encodes_reads_one P us m : encodes_or_empty P (fun c => [c]) us m ->
  exact_conversion (fun cs => cs = us /\ Forall P cs) (fun cs => cs) m.
Proof.
  intros H. destruct (encodes_reads _ _ _ _ H) as [G B]. split; [|exact B].
  intros cs Hc. rewrite (G cs Hc), flat_single. reflexivity.
Qed.

Section EndToEnd.
Context (I : implementation) (T : UnicodeTables).

Lemma e_conversions :
  (forall bs, text8 bs -> call_converts I T "toUcs4" [VS Char bs] Char32 (fun cs => reads_as cs bs) (fun cs => cs)) /\
  (forall bs, text8 bs -> call_converts I T "toUtf16" [VS Char bs] Char16
     (fun cs => reads_as cs bs /\ Forall (fun c => c <= 0x10FFFF) cs) (flat_map utf16_units)) /\
  (forall bs, text8 bs -> call_converts I T "toUcs2" [VS Char bs] Char16
     (fun cs => reads_as cs bs /\ Forall (fun c => c <= 0xFFFF) cs) (fun cs => cs)) /\
  (forall us, text32 us -> call_converts I T "toUtf8" [VS Char32 us] Char
     (fun cs => cs = us /\ Forall encodable8 cs) (flat_map utf8_bytes)) /\
  (forall us, text32 us -> call_converts I T "toUtf16" [VS Char32 us] Char16
     (fun cs => cs = us /\ Forall scalar cs) (flat_map utf16_units)) /\
  (forall us, text32 us -> call_converts I T "toUcs2" [VS Char32 us] Char16
     (fun cs => cs = us /\ Forall bmp cs) (fun cs => cs)) /\
  (forall us, text16 us -> call_converts I T "toUcs4" [VS Char16 us] Char32
     (fun cs => reads_as16 cs us) (fun cs => cs)) /\
  (forall us, text16 us -> call_converts I T "toUtf8" [VS Char16 us] Char
     (fun cs => lenient_as16 cs us) (flat_map utf8_bytes)).
Proof.
  repeat match goal with |- _ /\ _ => split end; intros s Hs.
  - exact (converts _ _ _ _ _ _ _ _ (a_toUcs4_8_string I T s (text8_bytes s Hs)) (toUcs4_8_exact s [] Hs)).
  - exact (converts _ _ _ _ _ _ _ _ (a_toUtf16_8_string I T s (text8_bytes s Hs)) (toUtf16_8_exact s [] Hs)).
  - exact (converts _ _ _ _ _ _ _ _ (a_toUcs2_8_string I T s (text8_bytes s Hs)) (toUcs2_8_exact s [] Hs)).
  - exact (converts _ _ _ _ _ _ _ _ (a_toUtf8_32_string I T s (text32_units s Hs)) (encodes_reads _ _ _ _ (toUtf8_32_exact s [] Hs))).
  - exact (converts _ _ _ _ _ _ _ _ (a_toUtf16_32_string I T s (text32_units s Hs)) (encodes_reads _ _ _ _ (toUtf16_32_exact s [] Hs))).
  - exact (converts _ _ _ _ _ _ _ _ (a_toUcs2_32_string I T s (text32_units s Hs)) (encodes_reads_one _ _ _ (toUcs2_32_exact s [] Hs))).
  - exact (converts _ _ _ _ _ _ _ _ (a_toUcs4_16_string I T s (text16_units s Hs)) (toUcs4_16_exact s [] Hs)).
  - exact (converts _ _ _ _ _ _ _ _ (a_toUtf8_16_string I T s (text16_units s Hs)) (proj2 (toUtf8_16_both s [] Hs))).
Qed.

Lemma answering f args m P : runs_to I T f args (boolean m) -> answers Done m P -> call_answers I T f args P.
Proof. intros R (b & E & H). exists b. split; [|exact H]. rewrite E in R. exact R. Qed.

Lemma int32_code t : int32 (code t).
Proof. destruct t; vm_compute; split; congruence. Qed.

Lemma e_checks :
  (forall bs t, pointer_checks I = false -> text8 bs ->
     call_answers I T "isUtf8" [VS Char bs; VI Enum (code t)]
       (acceptable8 (range_isUtf8 t) (possible_lead t) bs)) /\
  (forall us t, text16 us ->
     call_answers I T "isUtf16" [VS Char16 us; VI Enum (code t)]
       (acceptable16 (documented t) (supplementary_target t) us)) /\
  (forall us t, text16 us ->
     call_answers I T "isUcs2" [VS Char16 us; VI Enum (code t)] (Forall (fun c => bmp c /\ documented t c) us)) /\
  (forall us t, text32 us ->
     call_answers I T "isUcs4" [VS Char32 us; VI Enum (code t)] (Forall (range_isUcs4 t) us)).
Proof.
  repeat match goal with |- _ /\ _ => split end.
  - intros s t Hc Hs.
    refine (answering _ _ _ _ (a_isUtf8_string_range I T s (code t) (text8_bytes s Hs) Hc (int32_code t)) _).
    destruct (isUtf8_exact T s [] t nullPredicate Hs) as (b & E & H). exists b. split; [exact E|].
    rewrite H. unfold acceptable8.
    split; intros (cs & body & tail & E1 & E2 & F & G); exists cs, body, tail; repeat split; try assumption;
      revert F; apply Forall_impl; [intros c [X _]; exact X | intros c X; split; [exact X | reflexivity]].
  - intros s t Hs.
    exact (answering _ _ _ _ (a_isUtf16_string_range I T s (code t) (text16_units s Hs) (int32_code t)) (isUtf16_null_exact T s [] t Hs)).
  - intros s t Hs.
    exact (answering _ _ _ _ (a_isUcs2_string_range I T s (code t) (text16_units s Hs) (int32_code t)) (isUcs2_null_exact T s [] t Hs)).
  - intros s t Hs.
    exact (answering _ _ _ _ (a_isUcs4_string_range I T s (code t) (text32_units s Hs) (int32_code t)) (isUcs4_null_exact T s [] t Hs)).
Qed.

Lemma enc_text32 s : Forall encodable8 s -> text32 s.
Proof. apply Forall_impl. unfold encodable8. intros c [H _]. lia. Qed.

(* there and back *)
Lemma e_round_8 s : Forall encodable8 s ->
  exists bs, runs_to I T "toUtf8" [VS Char32 s] (Done (VS Char bs)) /\ runs_to I T "toUcs4" [VS Char bs] (Done (VS Char32 s)).
Proof.
  intros H. exists (flat_map utf8_bytes s). destruct e_conversions as (C1 & _ & _ & C4 & _). split.
  - apply (proj1 (C4 s (enc_text32 s H))). split; [reflexivity | exact H].
  - apply (proj1 (C1 _ (text8_flat s H)) s). apply reads_as_text. now apply utf8_text_flat.
Qed.
Lemma e_round_16 s : Forall scalar s ->
  exists us, runs_to I T "toUtf16" [VS Char32 s] (Done (VS Char16 us)) /\ runs_to I T "toUcs4" [VS Char16 us] (Done (VS Char32 s)).
Proof.
  intros H. exists (flat_map utf16_units s). destruct e_conversions as (_ & _ & _ & _ & C5 & _ & C7 & _). split.
  - apply (proj1 (C5 s (enc_text32 s (scalars_encodable8 s H)))). split; [reflexivity | exact H].
  - apply (proj1 (C7 _ (text16_flat s H)) s). now apply utf16_text_reads, utf16_text_flat.
Qed.
Lemma e_round_16_8 cs : Forall scalar cs ->
  exists bs, runs_to I T "toUtf8" [VS Char16 (flat_map utf16_units cs)] (Done (VS Char bs)) /\
    runs_to I T "toUtf16" [VS Char bs] (Done (VS Char16 (flat_map utf16_units cs))).
Proof.
  intros H. exists (flat_map utf8_bytes cs). destruct e_conversions as (_ & C2 & _ & _ & _ & _ & _ & C8). split.
  - apply (proj1 (C8 _ (text16_flat cs H)) cs). now apply reads_lenient, utf16_text_reads, utf16_text_flat.
  - apply (proj1 (C2 _ (text8_flat cs (scalars_encodable8 cs H))) cs). split.
    + now apply reads_as_text, utf8_text_flat, scalars_encodable8.
    + eapply Forall_impl; [|exact H]. unfold scalar. cbn. lia.
Qed.
Lemma e_round :
  (forall s, Forall encodable8 s ->
     exists bs, runs_to I T "toUtf8" [VS Char32 s] (Done (VS Char bs)) /\ runs_to I T "toUcs4" [VS Char bs] (Done (VS Char32 s))) /\
  (forall s, Forall scalar s ->
     exists us, runs_to I T "toUtf16" [VS Char32 s] (Done (VS Char16 us)) /\ runs_to I T "toUcs4" [VS Char16 us] (Done (VS Char32 s))) /\
  (forall cs, Forall scalar cs ->
     exists bs, runs_to I T "toUtf8" [VS Char16 (flat_map utf16_units cs)] (Done (VS Char bs)) /\
       runs_to I T "toUtf16" [VS Char bs] (Done (VS Char16 (flat_map utf16_units cs)))).
Proof. exact (conj e_round_8 (conj e_round_16 e_round_16_8)). Qed.
End EndToEnd.

(* whether char is signed makes no difference *)
Lemma e_signedness T f bs : In f ["isUtf8"; "toUcs2"; "toUtf16"; "toUcs4"; "unicodeLength"] -> Forall byte bs ->
  exists r, forall b c, runs_to {| char_signed := b; pointer_checks := false; configured := c |} T f [VS Char bs] r.
Proof.
  intros [<-|[<-|[<-|[<-|[<-|[]]]]]] H; eexists; intros b c.
  - apply a_isUtf8_string_bare; [exact H | reflexivity].
  - apply a_toUcs2_8_string; exact H.
  - apply a_toUtf16_8_string; exact H.
  - apply a_toUcs4_8_string; exact H.
  - apply a_length8_string; [exact H | reflexivity].
Qed.

(* pLast = src - 1, and src + testLength *)
Lemma length_steps_back : exists I T,
  (exists s, Forall byte s /\ ~ In 0 s /\ unicodeLength8_string s = Done 1 /\ runs_to I T "unicodeLength" [VS Char s] Undefined) /\
  (exists s, Forall unit16 s /\ ~ In 0 s /\ unicodeLength16_string s = Done 1 /\ runs_to I T "unicodeLength" [VS Char16 s] Undefined) /\
  (exists arr n, Forall unit32 arr /\ unicodeLength32 (At arr) n = Done 0 /\
     runs_to I T "unicodeLength" [vptr Char32 arr (At arr); VI UInt n] Undefined).
Proof.
  exists {| char_signed := true; pointer_checks := true; configured := Wchar32 |}, tables16. repeat match goal with |- _ /\ _ => split end.
  - exists [0x41]. split; [repeat constructor; discriminate|]. split; [intros [H|[]]; discriminate|]. split; [reflexivity|].
    apply (runs_from _ _ 20 10); [vm_compute; discriminate | vm_compute; reflexivity].
  - exists [0x41]. split; [repeat constructor; discriminate|]. split; [intros [H|[]]; discriminate|]. split; [reflexivity|].
    apply (runs_from _ _ 20 10); [vm_compute; discriminate | vm_compute; reflexivity].
  - exists [0x41; 0], 3. split; [repeat constructor; discriminate|]. split; [reflexivity|].
    apply (runs_from _ _ 20 10); [vm_compute; discriminate | vm_compute; reflexivity].
Qed.

Lemma case_end_to_end : Forall encodable8 [0x41; 0x7FFFFFFF] /\ Forall scalar [0x41; 0x1F600] /\
  text8 [0x41; 0xE2; 0x82] /\ reads_as [0x41] [0x41; 0xE2; 0x82] /\
  runs_to {| char_signed := true; pointer_checks := true; configured := Wchar32 |} tables16 "toUcs4" [VS Char [0x41; 0xE2; 0x82]] (Done (VS Char32 [0x41])).
Proof.
  split; [repeat constructor; unfold surrogate; lia|]. split; [repeat constructor; unfold surrogate; lia|].
  split; [repeat constructor; lia|]. split.
  - exists [0x41], [0xE2; 0x82]. split; [reflexivity|]. split.
    + refine (utf8_text_flat [0x41] _). repeat constructor; unfold surrogate; lia.
    + right. apply (cut_plain 0xE2 3 [0x82]); [red; lia | cbn; lia | repeat constructor; lia].
  - apply (runs_from _ _ 20 10); [vm_compute; discriminate | vm_compute; reflexivity].
Qed.

(* what does not form such pointers *)
Lemma returns_of I T f args t (m : outcome (list Z)) a : runs_to I T f args (string_of t m) -> m = Done a -> call_returns I T f args.
Proof. intros R E. exists (VS t a). rewrite E in R. exact R. Qed.
Lemma returns_bool I T f args m a : runs_to I T f args (boolean m) -> m = Done a -> call_returns I T f args.
Proof. intros R E. exists (VB a). rewrite E in R. exact R. Qed.
Lemma returns_int I T f args t m a : runs_to I T f args (integer t m) -> m = Done a -> call_returns I T f args.
Proof. intros R E. exists (VI t a). rewrite E in R. exact R. Qed.

Lemma e_returns I T :
  (forall us f, text8 us -> In f ["toUcs2"; "toUtf16"; "toUcs4"] -> call_returns I T f [VS Char us]) /\
  (forall us f, text16 us -> In f ["isUtf16"; "isUcs2"; "toUtf8"; "toUcs4"] -> call_returns I T f [VS Char16 us]) /\
  (forall us f, text32 us -> In f ["isUcs4"; "toUtf8"; "toUcs2"; "toUtf16"; "unicodeLength"] -> call_returns I T f [VS Char32 us]) /\
  (forall b us f, byte b -> text8 us -> In f ["isUtf8"; "unicodeLength"] ->
     call_returns I T f [vptr Char (b :: us ++ [0]) (At (us ++ [0]))]) /\
  (forall b us, unit16 b -> text16 us -> call_returns I T "unicodeLength" [vptr Char16 (b :: us ++ [0]) (At (us ++ [0]))]).
Proof.
  destruct settled_to as (S8 & S16 & S32). destruct settled_lengths as (L8 & L16 & L32).
  repeat match goal with |- _ /\ _ => split end.
  - intros us f H Hf. pose proof (text8_bytes us H). destruct (S8 us H) as ((r4 & R4) & (r16 & R16) & (r2 & R2)).
    destruct Hf as [<-|[<-|[<-|[]]]].
    + exact (returns_of _ _ _ _ _ _ _ (a_toUcs2_8_string I T us ltac:(assumption)) (R2 [])).
    + exact (returns_of _ _ _ _ _ _ _ (a_toUtf16_8_string I T us ltac:(assumption)) (R16 [])).
    + exact (returns_of _ _ _ _ _ _ _ (a_toUcs4_8_string I T us ltac:(assumption)) (R4 [])).
  - intros us f H Hf. pose proof (text16_units us H). destruct (S16 us H) as ((r4 & R4) & (r8 & R8)).
    destruct (settled_is T kUtf16 nullPredicate) as (_ & I16 & _ & _). destruct (I16 us H) as [b16 B16].
    destruct (settled_is T kUcs2 nullPredicate) as (_ & _ & I2 & _). destruct (I2 us H) as [b2 B2].
    destruct Hf as [<-|[<-|[<-|[<-|[]]]]].
    + exact (returns_bool _ _ _ _ _ _ (a_isUtf16_string_bare I T us ltac:(assumption)) (B16 [])).
    + exact (returns_bool _ _ _ _ _ _ (a_isUcs2_string_bare I T us ltac:(assumption)) (B2 [])).
    + exact (returns_of _ _ _ _ _ _ _ (a_toUtf8_16_string I T us ltac:(assumption)) (R8 [])).
    + exact (returns_of _ _ _ _ _ _ _ (a_toUcs4_16_string I T us ltac:(assumption)) (R4 [])).
  - intros us f H Hf. pose proof (text32_units us H). destruct (S32 us H) as ((r8 & R8) & (r16 & R16) & (r2 & R2)).
    destruct (settled_is T kUcs4 nullPredicate) as (_ & _ & _ & I4). destruct (I4 us H) as [b4 B4].
    destruct (L32 us H) as [l L].
    destruct Hf as [<-|[<-|[<-|[<-|[<-|[]]]]]].
    + exact (returns_bool _ _ _ _ _ _ (a_isUcs4_string_bare I T us ltac:(assumption)) (B4 [])).
    + exact (returns_of _ _ _ _ _ _ _ (a_toUtf8_32_string I T us ltac:(assumption)) (R8 [])).
    + exact (returns_of _ _ _ _ _ _ _ (a_toUcs2_32_string I T us ltac:(assumption)) (R2 [])).
    + exact (returns_of _ _ _ _ _ _ _ (a_toUtf16_32_string I T us ltac:(assumption)) (R16 [])).
    + exact (returns_int _ _ _ _ _ _ _ (a_length32_string I T us ltac:(assumption)) (L [])).
  - intros b us f Hb H Hf.
    assert (Pt : points_into byte (b :: us ++ [0]) (At (us ++ [0]))).
    { split; [exists [b]; reflexivity|]. constructor; [exact Hb|]. apply Forall_app.
      split; [exact (text8_bytes us H)|]. repeat constructor; discriminate. }
    assert (St : may_step_back I (b :: us ++ [0]) (At (us ++ [0]))) by (right; unfold size; cbn [List.length]; lia).
    destruct (settled_is T kUtf8 nullPredicate) as (I8 & _). destruct (I8 us H) as [b8 B8].
    destruct (L8 us H) as [l L].
    destruct Hf as [<-|[<-|[]]].
    + exact (returns_bool _ _ _ _ _ _ (a_isUtf8_bare I T _ _ Pt St) (B8 [])).
    + exact (returns_int _ _ _ _ _ _ _ (a_length8_bare I T _ _ Pt St) (L [])).
  - intros b us Hb H.
    assert (Pt : points_into unit16 (b :: us ++ [0]) (At (us ++ [0]))).
    { split; [exists [b]; reflexivity|]. constructor; [exact Hb|]. apply Forall_app.
      split; [exact (text16_units us H)|]. repeat constructor; discriminate. }
    assert (St : may_step_back I (b :: us ++ [0]) (At (us ++ [0]))) by (right; unfold size; cbn [List.length]; lia).
    destruct (L16 us H) as [l L].
    exact (returns_int _ _ _ _ _ _ _ (a_length16_bare I T _ _ Pt St) (L [])).
Qed.
