(* Calling conventions: invalid targets, null and empty inputs, what lies after the terminator,
   embedded zeros; agreement of the functions across encodings. *)
From Coq Require Import ZArith List Bool Lia ZifyBool.
From Verif Require Import Machine.
From Verif.Model Require Import Internal Decode Tables Predicate Str.
From Verif.Spec Require Import Utf Target Result.
From Verif.Proof Require Import Bits Encode DecodeFacts TextFacts ToFuncs IsFuncs Lenient LengthFuncs Round Consequences.
Import ListNotations.
Local Open Scope Z_scope.


Lemma target_of_Z r : 0 <= r <= 5 -> exists t, code t = r.
Proof.
  intros H. assert (r = 0 \/ r = 1 \/ r = 2 \/ r = 3 \/ r = 4 \/ r = 5) as [->|[->|[->|[->|[->| ->]]]]] by lia;
    [exists Ascii|exists Utf8|exists Ucs2|exists Utf16|exists Ucs4|exists Unicode]; reflexivity.
Qed.
Lemma badRange_spec r : badRange r = true <-> ~ (0 <= r <= 5).
Proof. unfold badRange, kAscii, kUnicode. lia. Qed.
Lemma range_cases r : badRange r = true \/ exists t, r = code t.
Proof.
  destruct (badRange r) eqn:E; [now left|right]. destruct (target_of_Z r) as [t <-]; [|eauto].
  destruct (Z.leb_spec 0 r), (Z.leb_spec r 5); try lia; exfalso; assert (badRange r = true) by (apply badRange_spec; lia); congruence.
Qed.

Lemma settled_isUtf8 T r pred us : text8 us -> settled (fun p => isUtf8 T p r pred) us.
Proof.
  intros H. destruct (range_cases r) as [E|[t ->]].
  - exists false. intros junk. unfold isUtf8, isUtf8_impl. now rewrite E.
  - destruct (answers_returns (fun p => isUtf8 T p (code t) pred) us _ (fun junk => isUtf8_exact T us junk t pred H)) as (b & _ & Hb).
    now exists b.
Qed.
Lemma settled_isUtf16 T r pred us : text16 us -> settled (fun p => isUtf16 T p r pred) us.
Proof.
  intros H. destruct (range_cases r) as [E|[t ->]].
  - exists false. intros junk. unfold isUtf16. now rewrite E.
  - destruct (answers_returns (fun p => isUtf16 T p (code t) pred) us _ (fun junk => isUtf16_exact T us junk t pred H)) as (b & _ & Hb).
    now exists b.
Qed.
Lemma settled_isUcs2 T r pred us : text16 us -> settled (fun p => isUcs2 T p r pred) us.
Proof.
  intros H. destruct (range_cases r) as [E|[t ->]].
  - exists false. intros junk. unfold isUcs2. now rewrite E.
  - destruct (answers_returns (fun p => isUcs2 T p (code t) pred) us _ (fun junk => isUcs2_exact T us junk t pred H)) as (b & _ & Hb).
    now exists b.
Qed.
Lemma settled_isUcs4 T r pred us : text32 us -> settled (fun p => isUcs4 T p r pred) us.
Proof.
  intros H. destruct (range_cases r) as [E|[t ->]].
  - exists false. intros junk. unfold isUcs4. now rewrite E.
  - destruct (answers_returns (fun p => isUcs4 T p (code t) pred) us _ (fun junk => isUcs4_exact T us junk t pred H)) as (b & _ & Hb).
    now exists b.
Qed.
Lemma settled_toUcs4_8 us : text8 us -> settled toUcs4_8 us.
Proof. intros H. destruct (toUcs4_8_total us H) as [(cs & _ & Hr)|[_ Hr]]; eexists; exact Hr. Qed.
Lemma settled_toUtf16_8 us : text8 us -> settled toUtf16_8 us.
Proof. intros H. destruct (toUtf16_8_total us H) as [(cs & _ & Hr)|[_ Hr]]; eexists; exact Hr. Qed.
Lemma settled_toUcs2_8 us : text8 us -> settled toUcs2_8 us.
Proof. intros H. destruct (toUcs2_8_total us H) as [(cs & _ & Hr)|[_ Hr]]; eexists; exact Hr. Qed.
Lemma settled_toUcs4_16 us : text16 us -> settled toUcs4_16 us.
Proof. intros H. destruct (toUcs4_16_total us H) as [(cs & _ & Hr)|[_ Hr]]; eexists; exact Hr. Qed.
Lemma settled_toUtf8_16 us : text16 us -> settled toUtf8_16 us.
Proof. intros H. destruct (toUtf8_16_total us H) as [(cs & _ & Hr)|[_ Hr]]; eexists; exact Hr. Qed.
Lemma settled_toUtf8_32 us : text32 us -> settled toUtf8_32 us.
Proof. intros H. destruct (toUtf8_32_total us H) as [[_ Hr]|[_ Hr]]; eexists; exact Hr. Qed.
Lemma settled_toUtf16_32 us : text32 us -> settled toUtf16_32 us.
Proof. intros H. destruct (toUtf16_32_total us H) as [[_ Hr]|[_ Hr]]; eexists; exact Hr. Qed.
Lemma settled_toUcs2_32 us : text32 us -> settled toUcs2_32 us.
Proof. intros H. destruct (toUcs2_32_total us H) as [[_ Hr]|[_ Hr]]; eexists; exact Hr. Qed.

Lemma settled_unicodeLength8 us : text8 us -> settled (fun p => unicodeLength8 p 0) us.
Proof.
  intros H. destruct (reads_bounded_dec 0x10FFFF us H) as [(cs & (body & tail & E & Hb & [Ht|Ht]) & Hu)|Hn].
  - subst tail. rewrite app_nil_r in E. subst body. exists (wrap32 (len cs)). intros junk.
    now apply (unicodeLength8_exact us junk H).
  - exists (wrap32 (len cs - 1)). intros junk. now apply (unicodeLength8_exact us junk H) with body tail.
  - exists 0. intros junk. apply (unicodeLength8_exact us junk H). intros cs Hr Hu. apply (Hn cs). auto.
Qed.
Lemma settled_unicodeLength16 us : text16 us -> settled (fun p => unicodeLength16 p 0) us.
Proof.
  intros H. destruct (reads16_dec us H) as [(cs & body & tail & E & Hb & Ht)|Hn].
  - destruct Ht as [->|(h & -> & Hh)].
    + rewrite app_nil_r in E. subst body. exists (wrap32 (len cs)). intros junk. now apply (unicodeLength16_exact us junk H).
    + exists (wrap32 (len cs - 1)). intros junk. now apply (unicodeLength16_exact us junk H) with body h.
  - exists 0. intros junk. now apply (unicodeLength16_exact us junk H).
Qed.
Lemma settled_unicodeLength32 us : text32 us -> settled (fun p => unicodeLength32 p 0) us.
Proof.
  intros H. destruct (Forall_dec_in (fun c => ~ surrogate c) us) as [HF|HF].
  - intros x. destruct (surrogate_dec x); tauto.
  - exists (wrap32 (len us)). intros junk. now apply (unicodeLength32_exact us junk H).
  - exists 0. intros junk. now apply (unicodeLength32_exact us junk H).
Qed.

(* a basic_string with an embedded zero behaves as its part before the first zero *)
Lemma embedded_zero {A} (f : ptr -> outcome A) us more : settled f us -> f (c_str (us ++ 0 :: more)) = f (c_str us).
Proof.
  intros (v & Hv). unfold c_str. rewrite <- app_assoc. cbn [app]. rewrite (Hv (more ++ [0])). symmetry. exact (Hv []).
Qed.

(* ---------------------------------------------------------------- unicodeLength and toUcs4 *)

Lemma length8_agrees cs bs : utf8_text cs bs -> Forall upto cs ->
  exists r, toUcs4_8_string bs = Done r /\ unicodeLength8_string bs = Done (wrap32 (len r)).
Proof.
  intros H Hu. pose proof (utf8_text_text8 _ _ H) as T8. exists cs. split.
  - apply (toUcs4_8_exact bs [] T8). now apply reads_as_text.
  - now apply (unicodeLength8_exact bs [] T8).
Qed.
Lemma length16_agrees cs us : utf16_text cs us ->
  exists r, toUcs4_16_string us = Done r /\ unicodeLength16_string us = Done (wrap32 (len r)).
Proof.
  intros H. pose proof (utf16_text_text16 _ _ H) as T16. exists cs. split.
  - apply (toUcs4_16_exact us [] T16). now apply utf16_text_reads.
  - now apply (unicodeLength16_exact us [] T16).
Qed.
Lemma lengths_agree cs bs us : utf8_text cs bs -> utf16_text cs us ->
  unicodeLength8_string bs = Done (wrap32 (len cs)) /\ unicodeLength16_string us = Done (wrap32 (len cs)) /\
  unicodeLength32_string cs = Done (wrap32 (len cs)).
Proof.
  intros H8 H16. pose proof (utf8_text_text8 _ _ H8) as T8. pose proof (utf16_text_text16 _ _ H16) as T16.
  destruct H16 as [Hs E]. repeat split.
  - apply (unicodeLength8_exact bs [] T8); [assumption|now apply scalars_upto].
  - apply (unicodeLength16_exact us [] T16). now split.
  - apply (unicodeLength32_exact cs []); [now apply encodable8_text32, scalars_encodable8|].
    eapply Forall_impl; [|exact Hs]. unfold scalar. tauto.
Qed.

(* ---------------------------------------------------------------- verdicts across encodings *)

Lemma Forall_iff_in {A} (R P Q : A -> Prop) l : (forall x, R x -> (P x <-> Q x)) -> Forall R l -> (Forall P l <-> Forall Q l).
Proof.
  intros H HR. induction HR as [|x l Hx Hl IH]; [split; constructor|].
  split; intros HF; apply Forall_cons_inv in HF; constructor; try (now apply H); tauto.
Qed.

Lemma verdict_8_32 T cs bs t pred : utf8_text cs bs -> (t <> Utf16 \/ Forall scalar cs) ->
  isUtf8_string T bs (code t) pred = isUcs4_string T cs (code t) pred.
Proof.
  intros H Ht. pose proof (utf8_text_text8 _ _ H) as T8.
  pose proof (utf8_text_range _ _ H) as Hr.
  apply (answers_eq (isUtf8_exact T bs [] t pred T8) (isUcs4_exact T cs [] t pred (encodable8_text32 _ Hr))).
  rewrite (acceptable8_whole _ _ cs bs H). destruct Ht as [Ht|Ht].
  - apply (Forall_iff_in encodable8); [|exact Hr]. intros c Hc. destruct t; cbn; try tauto.
  - apply (Forall_iff_in scalar); [|exact Ht]. intros c [Hc1 Hc2]. destruct t; cbn; try tauto.
    split; intros [[H1 H2] H3]; repeat split; auto; lia.
Qed.
(* [Hp] holds for all ten versions of the tables: Proof/Classes.v *)
Lemma verdict_16_32 T cs t pred : (forall c, bmp c -> pred16 T pred c = pred32 T pred c) -> Forall bmp cs ->
  isUtf16_string T cs (code t) pred = isUcs4_string T cs (code t) pred /\
  isUcs2_string T cs (code t) pred = isUcs4_string T cs (code t) pred.
Proof.
  intros Hp H. assert (Hs : Forall scalar cs) by (eapply Forall_impl; [|exact H]; apply bmp_scalar).
  assert (H16 : utf16_text cs cs).
  { split; [assumption|]. rewrite (flat_map_ext_in _ (fun c => [c])); [now rewrite flat_map_single|].
    intros c Hc. rewrite Forall_forall in H. specialize (H c Hc). apply utf16_units_bmp. unfold bmp in H. lia. }
  pose proof (utf16_text_text16 _ _ H16) as T16. pose proof (encodable8_text32 _ (scalars_encodable8 _ Hs)) as T32.
  split.
  - apply (answers_eq (isUtf16_exact T cs [] t pred T16) (isUcs4_exact T cs [] t pred T32)).
    rewrite (acceptable16_whole _ _ cs cs H16). apply (Forall_iff_in bmp); [|exact H]. intros c Hc. unfold ok16.
    rewrite utf16_units_bmp by (unfold bmp in Hc; lia). cbn [hd]. rewrite (Hp c Hc).
    unfold bmp in Hc. destruct t; cbn; unfold bmp, scalar; intuition lia.
  - apply (answers_eq (isUcs2_exact T cs [] t pred T16) (isUcs4_exact T cs [] t pred T32)).
    apply (Forall_iff_in bmp); [|exact H]. intros c Hc. rewrite (Hp c Hc). unfold bmp in Hc. destruct t; cbn; unfold bmp, scalar; intuition lia.
Qed.
Lemma verdict_16_null T cs us t : utf16_text cs us ->
  isUtf16_string T us (code t) nullPredicate = isUcs4_string T cs (code t) nullPredicate.
Proof.
  intros H. pose proof (utf16_text_text16 _ _ H) as T16. destruct (H) as [Hs _].
  pose proof (encodable8_text32 _ (scalars_encodable8 _ Hs)) as T32.
  apply (answers_eq (isUtf16_null_exact T us [] t T16) (isUcs4_null_exact T cs [] t T32)).
  rewrite (acceptable16_whole _ _ cs us H). apply (Forall_iff_in scalar); [|exact Hs].
  intros c [Hc1 Hc2]. destruct t; cbn; unfold bmp, scalar; intuition lia.
Qed.
