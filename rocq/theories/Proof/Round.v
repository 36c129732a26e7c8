(* Round trips, validity of outputs, nesting of targets, independence of what follows the NUL. *)
From Coq Require Import ZArith List Bool Lia ZifyBool.
From Verif Require Import Machine.
From Verif.Model Require Import Internal Decode Tables Predicate Str.
From Verif.Spec Require Import Utf Target Result.
From Verif.Proof Require Import Bits Encode DecodeFacts TextFacts ToFuncs IsFuncs Lenient LengthFuncs.
Import ListNotations.
Local Open Scope Z_scope.

(* ---------------------------------------------------------------- texts of code points *)

Lemma utf8_text_flat cs : Forall encodable8 cs -> utf8_text cs (flat_map utf8_bytes cs).
Proof. induction 1 as [|c cs Hc Hcs IH]; cbn; constructor; [now constructor|assumption]. Qed.
Lemma text8_flat cs : Forall encodable8 cs -> text8 (flat_map utf8_bytes cs).
Proof. intros H. eapply utf8_text_text8, utf8_text_flat, H. Qed.
Lemma scalar_encodable8 c : scalar c -> encodable8 c.
Proof. unfold scalar, encodable8, surrogate. lia. Qed.
Lemma bmp_scalar c : bmp c -> scalar c.
Proof. unfold scalar, bmp, surrogate. lia. Qed.
Lemma encodable8_text32 cs : Forall encodable8 cs -> text32 cs.
Proof. apply Forall_impl. unfold encodable8. lia. Qed.
Lemma scalars_encodable8 cs : Forall scalar cs -> Forall encodable8 cs.
Proof. apply Forall_impl, scalar_encodable8. Qed.
Lemma scalars_upto cs : Forall scalar cs -> Forall upto cs.
Proof. apply Forall_impl. unfold scalar, upto. lia. Qed.
Lemma encodable_upto_scalar cs : Forall encodable8 cs -> Forall upto cs -> Forall scalar cs.
Proof.
  induction 1 as [|c cs Hc Hcs IH]; intros H; constructor; apply Forall_cons_inv in H; [|tauto].
  unfold upto, encodable8, scalar, surrogate in *. lia.
Qed.

Lemma units_text16 c : scalar c -> text16 (utf16_units c).
Proof.
  intros H. destruct (units_cases c H) as [[[Hb _] ->]|(h & l & -> & Hh & Hl & _)].
  - repeat constructor; lia.
  - unfold high_surrogate, low_surrogate in *. repeat constructor; lia.
Qed.
Lemma text16_flat cs : Forall scalar cs -> text16 (flat_map utf16_units cs).
Proof. induction 1 as [|c cs Hc Hcs IH]; cbn; [constructor|]. apply Forall_app. split; [now apply units_text16|exact IH]. Qed.
Lemma utf16_text_flat cs : Forall scalar cs -> utf16_text cs (flat_map utf16_units cs).
Proof. intros H. split; [assumption|reflexivity]. Qed.

Lemma exact_to_string {f : ptr -> outcome (list Z)} {reads enc} us :
  (forall junk, exact_conversion reads enc (f (At (us ++ 0 :: junk)))) ->
  forall cs, reads cs -> f (c_str us) = Done (enc cs).
Proof. intros H cs Hr. destruct (H []) as [H1 _]. now apply H1. Qed.

(* ---------------------------------------------------------------- round trips *)

Lemma ucs4_utf8_ucs4 s : Forall encodable8 s ->
  exists bs, toUtf8_32_string s = Done bs /\ toUcs4_8_string bs = Done s.
Proof.
  intros H. exists (flat_map utf8_bytes s). split.
  - destruct (toUtf8_32_exact s [] (encodable8_text32 _ H)) as [H1 _]. now apply H1.
  - destruct (toUcs4_8_exact _ [] (text8_flat _ H)) as [H1 _]. apply H1. now apply reads_as_text, utf8_text_flat.
Qed.

Lemma ucs4_utf16_ucs4 s : Forall scalar s ->
  exists us, toUtf16_32_string s = Done us /\ toUcs4_16_string us = Done s.
Proof.
  intros H. exists (flat_map utf16_units s). split.
  - destruct (toUtf16_32_exact s [] (encodable8_text32 _ (scalars_encodable8 _ H))) as [H1 _]. now apply H1.
  - destruct (toUcs4_16_exact _ [] (text16_flat _ H)) as [H1 _]. apply H1. now apply utf16_text_reads, utf16_text_flat.
Qed.

Lemma utf16_utf8_utf16 cs us : utf16_text cs us ->
  exists bs, toUtf8_16_string us = Done bs /\ utf8_text cs bs /\ toUtf16_8_string bs = Done us.
Proof.
  intros [H ->]. exists (flat_map utf8_bytes cs). repeat split.
  - destruct (toUtf8_16_exact _ [] (text16_flat _ H)) as [H1 _]. apply H1. now apply reads_lenient, utf16_text_reads, utf16_text_flat.
  - now apply utf8_text_flat, scalars_encodable8.
  - destruct (toUtf16_8_exact _ [] (text8_flat _ (scalars_encodable8 _ H))) as [H1 _]. apply H1. split.
    + now apply reads_as_text, utf8_text_flat, scalars_encodable8.
    + eapply Forall_impl; [|exact H]. unfold scalar. cbn. lia.
Qed.

Lemma utf16_ucs4_utf16 cs us : utf16_text cs us ->
  toUcs4_16_string us = Done cs /\ toUtf16_32_string cs = Done us.
Proof.
  intros [H ->]. split.
  - destruct (toUcs4_16_exact _ [] (text16_flat _ H)) as [H1 _]. apply H1. now apply utf16_text_reads, utf16_text_flat.
  - destruct (toUtf16_32_exact cs [] (encodable8_text32 _ (scalars_encodable8 _ H))) as [H1 _]. now apply H1.
Qed.

Lemma utf8_ucs4_utf8 cs bs : text8 bs -> reads_as cs bs ->
  toUcs4_8_string bs = Done cs /\ toUtf8_32_string cs = Done (flat_map utf8_bytes cs).
Proof.
  intros Hb H. split.
  - destruct (toUcs4_8_exact _ [] Hb) as [H1 _]. now apply H1.
  - pose proof (reads_as_range _ _ H) as Hr.
    destruct (toUtf8_32_exact cs [] (encodable8_text32 _ Hr)) as [H1 _]. now apply H1.
Qed.

Lemma utf8_plain_round cs : Forall encodable8 cs ->
  exists us, toUcs4_8_string (flat_map utf8_bytes cs) = Done us /\
    toUtf8_32_string us = Done (flat_map utf8_bytes cs).
Proof.
  intros H. exists cs. apply utf8_ucs4_utf8; [now apply text8_flat|]. now apply reads_as_text, utf8_text_flat.
Qed.

(* ---------------------------------------------------------------- deciding readability *)

Lemma reads16_dec us : text16 us -> (exists cs, reads_as16 cs us) \/ (forall cs, ~ reads_as16 cs us).
Proof.
  assert (H : forall n us, (length us <= n)%nat -> text16 us ->
    (exists cs, reads_as16 cs us) \/ (forall cs, ~ reads_as16 cs us)).
  { clear. induction n as [|n IH]; intros us Hn Ht.
    - destruct us; [|cbn in Hn; lia]. left. exists []. apply reads16_nil.
    - destruct us as [|u us]; [left; exists []; apply reads16_nil|].
      pose proof (Forall_cons_inv _ _ _ Ht) as [Hu Htl].
      destruct (scan16_cases (u :: us) Ht ltac:(discriminate)) as [c r E Hc|h l r E Hh Hl|h E Hh|h x r E Hh Hx|l r E Hl];
        injection E as -> ->.
      + destruct (IH r ltac:(cbn in Hn; lia) Htl) as [[cs H]|H].
        * left. exists (c :: cs). now apply reads16_plain.
        * right. intros cs H'. apply reads16_plain_inv in H'; [|assumption]. destruct H' as (cs' & _ & H'). exact (H _ H').
      + pose proof (Forall_cons_inv _ _ _ Htl) as [_ Htr].
        destruct (IH r ltac:(cbn in Hn; lia) Htr) as [[cs H]|H].
        * left. exists (pair_value h l :: cs). now apply reads16_pair.
        * right. intros cs H'. apply reads16_pair_inv in H'; [|assumption|assumption]. destruct H' as (cs' & _ & H'). exact (H _ H').
      + left. exists []. now apply reads16_high.
      + right. intros cs. now apply reads16_high_inv.
      + right. intros cs. now apply reads16_low_inv. }
  apply (H (length us)). lia.
Qed.

Lemma lenient_dec us : text16 us -> (exists cs, lenient_as16 cs us) \/ (forall cs, ~ lenient_as16 cs us).
Proof.
  assert (H : forall n us, (length us <= n)%nat -> text16 us ->
    (exists cs, lenient_as16 cs us) \/ (forall cs, ~ lenient_as16 cs us)).
  { clear. induction n as [|n IH]; intros us Hn Ht.
    - destruct us; [|cbn in Hn; lia]. left. exists []. apply lenient_nil.
    - destruct us as [|u us]; [left; exists []; apply lenient_nil|].
      pose proof (Forall_cons_inv _ _ _ Ht) as [Hu Htl].
      destruct (lscan16_cases (u :: us) Ht ltac:(discriminate)) as [c r E Hc Hnh|h l r E Hh Hl|h E Hh|h x r E Hh Hx];
        injection E as -> ->.
      + destruct (IH r ltac:(cbn in Hn; lia) Htl) as [[cs H]|H].
        * left. exists (c :: cs). change (c :: r) with ([c] ++ r). rewrite <- (utf16_units_bmp c) by lia.
          apply lenient_cons; [|assumption]. unfold high_surrogate, lax, scalar, low_surrogate, surrogate in *. lia.
        * right. intros cs H'. apply lenient_plain_inv in H'; [|assumption]. destruct H' as (cs' & _ & H'). exact (H _ H').
      + pose proof (Forall_cons_inv _ _ _ Htl) as [_ Htr].
        destruct (pair_units h l Hh Hl) as (Eu & Hsc & Hrg).
        destruct (IH r ltac:(cbn in Hn; lia) Htr) as [[cs H]|H].
        * left. exists (pair_value h l :: cs). change (h :: l :: r) with ([h; l] ++ r). rewrite <- Eu.
          apply lenient_cons; [now left|assumption].
        * right. intros cs H'. apply lenient_pair_inv in H'; [|assumption]. destruct H' as (_ & cs' & _ & H'). exact (H _ H').
      + left. exists []. now apply lenient_last.
      + right. intros cs H'. apply lenient_pair_inv in H'; [|assumption]. destruct H' as (H' & _). contradiction. }
  apply (H (length us)). lia.
Qed.

Lemma Forall_dec_in {A} (P : A -> Prop) l : (forall x, P x \/ ~ P x) -> Forall P l \/ ~ Forall P l.
Proof.
  intros H. induction l as [|x l [IH|IH]]; [left; constructor| |].
  - destruct (H x); [left; now constructor|right]. intros H'. apply Forall_cons_inv in H'. tauto.
  - right. intros H'. apply Forall_cons_inv in H'. tauto.
Qed.
Lemma upto_dec bound cs : Forall (fun c => c <= bound) cs \/ ~ Forall (fun c => c <= bound) cs.
Proof. apply Forall_dec_in. intros x. lia. Qed.

(* ---------------------------------------------------------------- results do not depend on what follows the NUL *)


Lemma exact_returns (f : ptr -> outcome (list Z)) reads enc us :
  (forall junk, exact_conversion reads enc (f (At (us ++ 0 :: junk)))) ->
  (exists cs, reads cs) \/ (forall cs, ~ reads cs) ->
  (exists cs, reads cs /\ returns f us (enc cs)) \/ ((forall cs, ~ reads cs) /\ returns f us []).
Proof.
  intros He [[cs Hr]|Hn].
  - left. exists cs. split; [assumption|]. intros junk. now apply (He junk).
  - right. split; [assumption|]. intros junk. now apply (He junk).
Qed.

Lemma toUcs4_8_total bs : text8 bs ->
  (exists cs, reads_as cs bs /\ returns toUcs4_8 bs cs) \/ ((forall cs, ~ reads_as cs bs) /\ returns toUcs4_8 bs []).
Proof.
  intros H. apply (exact_returns toUcs4_8 (fun cs => reads_as cs bs) (fun cs => cs)).
  - intros junk. now apply toUcs4_8_exact.
  - now apply reads_as_dec.
Qed.

Lemma reads_bounded_dec bound bs : text8 bs ->
  (exists cs, reads_as cs bs /\ Forall (fun c => c <= bound) cs) \/
  (forall cs, ~ (reads_as cs bs /\ Forall (fun c => c <= bound) cs)).
Proof.
  intros H. destruct (reads_as_dec bs H) as [[cs Hr]|Hn].
  - destruct (upto_dec bound cs); [left; eauto|right]. intros cs' [Hr' HF].
    now rewrite (reads_as_unique _ _ _ Hr' Hr) in HF.
  - right. intros cs [Hr _]. exact (Hn _ Hr).
Qed.

Lemma toUtf16_8_total bs : text8 bs ->
  (exists cs, (reads_as cs bs /\ Forall (fun c => c <= 0x10FFFF) cs) /\ returns toUtf16_8 bs (flat_map utf16_units cs)) \/
  ((forall cs, ~ (reads_as cs bs /\ Forall (fun c => c <= 0x10FFFF) cs)) /\ returns toUtf16_8 bs []).
Proof.
  intros H. apply (exact_returns toUtf16_8).
  - intros junk. now apply toUtf16_8_exact.
  - now apply reads_bounded_dec.
Qed.
Lemma toUcs2_8_total bs : text8 bs ->
  (exists cs, (reads_as cs bs /\ Forall (fun c => c <= 0xFFFF) cs) /\ returns toUcs2_8 bs cs) \/
  ((forall cs, ~ (reads_as cs bs /\ Forall (fun c => c <= 0xFFFF) cs)) /\ returns toUcs2_8 bs []).
Proof.
  intros H. apply (exact_returns toUcs2_8 _ (fun cs => cs)).
  - intros junk. now apply toUcs2_8_exact.
  - now apply reads_bounded_dec.
Qed.
Lemma toUcs4_16_total us : text16 us ->
  (exists cs, reads_as16 cs us /\ returns toUcs4_16 us cs) \/ ((forall cs, ~ reads_as16 cs us) /\ returns toUcs4_16 us []).
Proof.
  intros H. apply (exact_returns toUcs4_16 (fun cs => reads_as16 cs us) (fun cs => cs)).
  - intros junk. now apply toUcs4_16_exact.
  - now apply reads16_dec.
Qed.
Lemma toUtf8_16_total us : text16 us ->
  (exists cs, lenient_as16 cs us /\ returns toUtf8_16 us (flat_map utf8_bytes cs)) \/
  ((forall cs, ~ lenient_as16 cs us) /\ returns toUtf8_16 us []).
Proof.
  intros H. apply (exact_returns toUtf8_16 (fun cs => lenient_as16 cs us)).
  - intros junk. now apply toUtf8_16_exact.
  - now apply lenient_dec.
Qed.

Lemma encodes_total (f : ptr -> outcome (list Z)) P enc us :
  (forall c, P c \/ ~ P c) -> (forall junk, encodes_or_empty P enc us (f (At (us ++ 0 :: junk)))) ->
  (Forall P us /\ returns f us (flat_map enc us)) \/ (~ Forall P us /\ returns f us []).
Proof.
  intros Hd He. destruct (Forall_dec_in P us Hd) as [H|H]; [left|right]; (split; [assumption|]);
    intros junk; now apply (He junk).
Qed.
Lemma surrogate_dec c : surrogate c \/ ~ surrogate c.
Proof. unfold surrogate. lia. Qed.
Lemma encodable8_dec c : encodable8 c \/ ~ encodable8 c.
Proof. unfold encodable8, surrogate. lia. Qed.
Lemma scalar_dec c : scalar c \/ ~ scalar c.
Proof. unfold scalar, surrogate. lia. Qed.
Lemma bmp_dec c : bmp c \/ ~ bmp c.
Proof. unfold bmp, surrogate. lia. Qed.

Lemma toUtf8_32_total us : text32 us ->
  (Forall encodable8 us /\ returns toUtf8_32 us (flat_map utf8_bytes us)) \/ (~ Forall encodable8 us /\ returns toUtf8_32 us []).
Proof. intros H. apply encodes_total; [apply encodable8_dec|]. intros junk. now apply toUtf8_32_exact. Qed.
Lemma toUtf16_32_total us : text32 us ->
  (Forall scalar us /\ returns toUtf16_32 us (flat_map utf16_units us)) \/ (~ Forall scalar us /\ returns toUtf16_32 us []).
Proof. intros H. apply encodes_total; [apply scalar_dec|]. intros junk. now apply toUtf16_32_exact. Qed.
Lemma toUcs2_32_total us : text32 us ->
  (Forall bmp us /\ returns toUcs2_32 us us) \/ (~ Forall bmp us /\ returns toUcs2_32 us []).
Proof.
  intros H. destruct (encodes_total toUcs2_32 bmp (fun c => [c]) us bmp_dec) as [[H1 H2]|H1].
  - intros junk. now apply toUcs2_32_exact.
  - left. split; [assumption|]. now rewrite flat_map_single in H2.
  - now right.
Qed.

Lemma answers_returns (f : ptr -> outcome bool) us P : (forall junk, answers Done (f (At (us ++ 0 :: junk))) P) ->
  exists b, (b = true <-> P) /\ returns f us b.
Proof.
  intros H. destruct (H []) as (b & _ & Hb). exists b. split; [assumption|]. intros junk.
  destruct (H junk) as (b' & E & Hb'). rewrite E. f_equal. apply eq_true_iff_eq. tauto.
Qed.
