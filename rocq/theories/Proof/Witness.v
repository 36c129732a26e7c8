(* Concrete cases used by the property files: non-vacuity witnesses and counterexamples. *)
From Coq Require Import ZArith List Bool Lia ZifyBool.
From Verif Require Import Machine.
From Verif.Model Require Import Internal Decode Tables Predicate Str.
From Verif.Spec Require Import Utf Target Result.
From Verif.Proof Require Import Bits Encode DecodeFacts TextFacts ToFuncs IsFuncs Lenient LengthFuncs Round Consequences Calls.
Import ListNotations.
Local Open Scope Z_scope.

Ltac range := repeat constructor; unfold surrogate; lia.

Lemma case_utf8 :
  let bs := [0x41; 0xE2; 0x82; 0xAC; 0xED; 0xA0; 0xBD; 0xED; 0xB8; 0x80; 0xE2; 0x82] in
  text8 bs /\ reads_as [0x41; 0x20AC; 0x1F600] bs.
Proof.
  cbn zeta. split; [range|]. exists [0x41; 0xE2; 0x82; 0xAC; 0xED; 0xA0; 0xBD; 0xED; 0xB8; 0x80], [0xE2; 0x82].
  split; [reflexivity|]. split.
  - apply (text_cons 0x41 [0x41]); [apply (seq_plain 0x41); range|].
    apply (text_cons 0x20AC [0xE2; 0x82; 0xAC]); [apply (seq_plain 0x20AC); range|].
    apply (text_cons 0x1F600 [0xED; 0xA0; 0xBD; 0xED; 0xB8; 0x80]); [apply (seq_pair 0x1F600); lia|constructor].
  - right. apply (cut_plain _ 3); [unfold lead; lia|cbn; lia|repeat constructor; unfold continuation; lia].
Qed.

Lemma case_utf16 : reads_as16 [0x41; 0x1F600] [0x41; 0xD83D; 0xDE00; 0xD83D].
Proof.
  exists [0x41; 0xD83D; 0xDE00], [0xD83D]. split; [reflexivity|]. split; [split; [range|reflexivity]|].
  right. exists 0xD83D. split; [reflexivity|]. unfold high_surrogate. lia.
Qed.

Lemma stray_low_surrogate : exists us, text16 us /\ (forall cs, ~ reads_as16 cs us) /\
  toUtf8_16 (At (us ++ [0])) = Done [0x41; 0xED; 0xB8; 0x80].
Proof.
  exists [0x41; 0xDE00]. split; [range|]. split; [|reflexivity]. intros cs H.
  destruct (toUcs4_16_exact [0x41; 0xDE00] [] ltac:(range)) as [H1 _]. specialize (H1 cs H). cbn in H1.
  injection H1 as <-. destruct H as (body & tail & E & [_ Hb] & Ht). cbn in Hb. subst body. cbn in E. subst tail.
  destruct Ht as [Ht|(h & Ht & _)]; discriminate Ht.
Qed.

Lemma toUtf8_16_both us junk : text16 us ->
  (forall cs, reads_as16 cs us -> toUtf8_16 (At (us ++ 0 :: junk)) = Done (flat_map utf8_bytes cs)) /\
  exact_conversion (fun cs => lenient_as16 cs us) (flat_map utf8_bytes) (toUtf8_16 (At (us ++ 0 :: junk))).
Proof.
  intros H. pose proof (toUtf8_16_exact us junk H) as E. split; [|exact E].
  intros cs Hr. apply E. now apply reads_lenient.
Qed.

(* ---------------------------------------------------------------- tails *)

Lemma seq_from_c0 c s rest : utf8_seq c s -> s <> 0xC0 :: rest.
Proof.
  intros Hs E. destruct Hs as [c [Hc Hns]|c Hc].
  - pose proof (utf8_bytes_shape c ltac:(lia)) as S. rewrite E in S. inversion S; subst; lia.
  - destruct (utf16_units_supp c Hc) as (h & l & Eu & Hh & Hl & _). rewrite Eu in E. cbn [flat_map] in E.
    unfold high_surrogate in Hh.
    destruct (surrogate_shape h _ ltac:(unfold surrogate; lia) (utf8_bytes_shape h ltac:(lia))) as (a & b & E1 & _).
    rewrite E1 in E. discriminate E.
Qed.
Lemma c0_not_completable : ~ completable [0xC0].
Proof. intros (_ & c & s & rest & Hs & E & Hr). exact (seq_from_c0 _ _ _ Hs E). Qed.

Lemma overlong_tail : exists cs body tail, utf8_text cs body /\ tail <> [] /\ ~ completable tail /\
  toUcs4_8 (At ((body ++ tail) ++ [0])) = Done [0x41] /\ toUtf16_8 (At ((body ++ tail) ++ [0])) = Done [0x41] /\
  toUcs2_8 (At ((body ++ tail) ++ [0])) = Done [0x41].
Proof.
  exists [0x41], [0x41], [0xC0]. repeat split; try reflexivity; [|discriminate|apply c0_not_completable].
  apply (text_cons 0x41 [0x41]); [apply (seq_plain 0x41); range|constructor].
Qed.

Lemma completable_ignored cs body tail junk : utf8_text cs body -> completable tail ->
  let p := At ((body ++ tail) ++ 0 :: junk) in
  toUcs4_8 p = Done cs /\
  (Forall (fun c => c <= 0x10FFFF) cs -> toUtf16_8 p = Done (flat_map utf16_units cs)) /\
  (Forall (fun c => c <= 0xFFFF) cs -> toUcs2_8 p = Done cs).
Proof.
  intros Hb (Hne & c & s & rest & Hs & E & Hr). pose proof (completable_cut c s tail rest Hs E Hr Hne) as Hc.
  assert (Ht : text8 (body ++ tail)) by (apply text8_app; split; [eapply utf8_text_text8; eassumption|now apply cut_text8]).
  assert (R : reads_as cs (body ++ tail)) by (exists body, tail; auto).
  cbn zeta. split; [now apply (toUcs4_8_exact _ junk Ht)|]. split; intros Hu.
  - now apply (toUtf16_8_exact _ junk Ht).
  - now apply (toUcs2_8_exact _ junk Ht).
Qed.

(* ---------------------------------------------------------------- outputs *)

Lemma invalid_output : exists us r, text16 us /\ toUtf8_16 (At (us ++ [0])) = Done r /\
  forall v, isUtf8_string (tables v) r kUtf8 nullPredicate = Done false.
Proof. exists [0x41; 0xDE00], [0x41; 0xED; 0xB8; 0x80]. split; [range|]. split; [reflexivity|]. now intros []. Qed.

Lemma outputs_valid T :
  (forall us, text32 us -> valid_output toUtf8_32 (fun r => isUtf8_string T r kUtf8 nullPredicate) us) /\
  (forall us cs, text16 us -> reads_as16 cs us -> valid_output toUtf8_16 (fun r => isUtf8_string T r kUtf8 nullPredicate) us) /\
  (forall us, text32 us -> valid_output toUtf16_32 (fun r => isUtf16_string T r kUtf16 nullPredicate) us) /\
  (forall bs, text8 bs -> valid_output toUtf16_8 (fun r => isUtf16_string T r kUtf16 nullPredicate) bs) /\
  (forall us, text32 us -> valid_output toUcs2_32 (fun r => isUcs2_string T r kUcs2 nullPredicate) us) /\
  (forall bs, text8 bs -> valid_output toUcs2_8 (fun r => isUcs2_string T r kUcs2 nullPredicate) bs) /\
  (forall bs, text8 bs -> valid_output toUcs4_8 (fun r => isUcs4_string T r kUcs4 nullPredicate) bs) /\
  (forall us, text16 us -> valid_output toUcs4_16 (fun r => isUcs4_string T r kUcs4 nullPredicate) us).
Proof.
  split; [apply output_toUtf8_32|]. split; [apply output_toUtf8_16|]. split; [apply output_toUtf16_32|].
  split; [apply output_toUtf16_8|]. split; [apply output_toUcs2_32|]. split; [apply output_toUcs2_8|].
  split; [apply output_toUcs4_8|apply output_toUcs4_16].
Qed.

(* ---------------------------------------------------------------- concatenation *)

Lemma concat_conversions :
  (forall cs1 a cs2 b, utf8_text cs1 a -> text8 b -> reads_as cs2 b ->
     exists r1 r2, toUcs4_8_string a = Done r1 /\ toUcs4_8_string b = Done r2 /\ toUcs4_8_string (a ++ b) = Done (r1 ++ r2)) /\
  (forall cs1 a cs2 b, utf8_text cs1 a -> text8 b -> reads_as cs2 b -> Forall scalar cs1 -> Forall scalar cs2 ->
     exists r1 r2, toUtf16_8_string a = Done r1 /\ toUtf16_8_string b = Done r2 /\ toUtf16_8_string (a ++ b) = Done (r1 ++ r2)) /\
  (forall cs1 a cs2 b, utf8_text cs1 a -> text8 b -> reads_as cs2 b -> Forall bmp cs1 -> Forall bmp cs2 ->
     exists r1 r2, toUcs2_8_string a = Done r1 /\ toUcs2_8_string b = Done r2 /\ toUcs2_8_string (a ++ b) = Done (r1 ++ r2)) /\
  (forall cs1 a cs2 b, utf16_text cs1 a -> text16 b -> reads_as16 cs2 b ->
     exists r1 r2, toUtf8_16_string a = Done r1 /\ toUtf8_16_string b = Done r2 /\ toUtf8_16_string (a ++ b) = Done (r1 ++ r2)) /\
  (forall cs1 a cs2 b, utf16_text cs1 a -> text16 b -> reads_as16 cs2 b ->
     exists r1 r2, toUcs4_16_string a = Done r1 /\ toUcs4_16_string b = Done r2 /\ toUcs4_16_string (a ++ b) = Done (r1 ++ r2)) /\
  (forall a b, Forall encodable8 a -> Forall encodable8 b ->
     exists r1 r2, toUtf8_32_string a = Done r1 /\ toUtf8_32_string b = Done r2 /\ toUtf8_32_string (a ++ b) = Done (r1 ++ r2)) /\
  (forall a b, Forall scalar a -> Forall scalar b ->
     exists r1 r2, toUtf16_32_string a = Done r1 /\ toUtf16_32_string b = Done r2 /\ toUtf16_32_string (a ++ b) = Done (r1 ++ r2)) /\
  (forall a b, Forall bmp a -> Forall bmp b ->
     exists r1 r2, toUcs2_32_string a = Done r1 /\ toUcs2_32_string b = Done r2 /\ toUcs2_32_string (a ++ b) = Done (r1 ++ r2)).
Proof.
  assert (Hb : forall l, Forall bmp l -> text32 l) by (intros l; apply Forall_impl; unfold bmp; lia).
  assert (Hs : forall l, Forall scalar l -> text32 l) by (intros l; apply Forall_impl; unfold scalar; lia).
  repeat match goal with |- _ /\ _ => split end.
  - intros cs1 a cs2 b H1 H2 H3. destruct (concat_toUcs4_8 _ _ _ _ H1 H2 H3) as (A & B & C). eauto.
  - intros. eapply concat_toUtf16_8; eassumption.
  - intros. eapply concat_toUcs2_8; eassumption.
  - intros cs1 a cs2 b H1 H2 H3. destruct (concat_from16 _ _ _ _ H1 H2 H3) as (r1 & r2 & A & B & C & _). eauto.
  - intros cs1 a cs2 b H1 H2 H3. destruct (concat_from16 _ _ _ _ H1 H2 H3) as (r1 & r2 & _ & _ & _ & A & B & C). eauto.
  - intros a b Ha Hb'. apply (concat_from32 toUtf8_32 encodable8 utf8_bytes); auto using encodable8_text32.
    intros us Hu. now apply toUtf8_32_exact.
  - intros a b Ha Hb'. apply (concat_from32 toUtf16_32 scalar utf16_units); auto.
    intros us Hu. now apply toUtf16_32_exact.
  - intros a b Ha Hb'. apply (concat_from32 toUcs2_32 bmp (fun c => [c])); auto.
    intros us Hu. now apply toUcs2_32_exact.
Qed.

Lemma concat_checks T t pred :
  (forall cs a b, utf8_text cs a -> text8 b ->
     conj_of (isUtf8_string T (a ++ b) (code t) pred) (isUtf8_string T a (code t) pred) (isUtf8_string T b (code t) pred)) /\
  (forall cs a b, utf16_text cs a -> text16 b ->
     conj_of (isUtf16_string T (a ++ b) (code t) pred) (isUtf16_string T a (code t) pred) (isUtf16_string T b (code t) pred)) /\
  (forall a b, text16 a -> text16 b ->
     conj_of (isUcs2_string T (a ++ b) (code t) pred) (isUcs2_string T a (code t) pred) (isUcs2_string T b (code t) pred)) /\
  (forall a b, text32 a -> text32 b ->
     conj_of (isUcs4_string T (a ++ b) (code t) pred) (isUcs4_string T a (code t) pred) (isUcs4_string T b (code t) pred)).
Proof.
  split; [intros; now apply concat_isUtf8 with cs|]. split; [intros; now apply concat_isUtf16 with cs|].
  split; [intros; now apply concat_isUcs2|intros; now apply concat_isUcs4].
Qed.

Lemma case_utf8_whole : utf8_text [0x41; 0x20AC] [0x41; 0xE2; 0x82; 0xAC].
Proof. apply (utf8_text_flat [0x41; 0x20AC]). range. Qed.
Lemma case_utf16_whole : utf16_text [0x41; 0x1F600] [0x41; 0xD83D; 0xDE00].
Proof. split; [range|reflexivity]. Qed.
Lemma case_completable : completable [0xE2; 0x82].
Proof.
  split; [discriminate|]. exists 0x20AC, [0xE2; 0x82; 0xAC], [0xAC]. split; [apply (seq_plain 0x20AC); range|].
  split; [reflexivity|discriminate].
Qed.
