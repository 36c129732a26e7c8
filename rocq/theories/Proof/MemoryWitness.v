(* Statements and witnesses of C21-C32. *)
From Coq Require Import ZArith List Bool Lia ZifyBool.
From Verif Require Import Machine.
From Verif.Model Require Import Internal Decode Tables Predicate Str Lower CodePage.
From Verif.Spec Require Import Utf Target Result Bounded Case.
From Verif.Proof Require Import Bits Encode DecodeFacts TextFacts ToFuncs IsFuncs Lenient LengthFuncs Round Consequences Calls
  BoundedStep Bounded8 Bounded16 Witness CaseFacts.
Import ListNotations.
Local Open Scope Z_scope.

(* ---------------------------------------------------------------- NUL-terminated calls *)

Lemma settled_is T r pred :
  (forall us, text8 us -> settled (fun p => isUtf8 T p r pred) us) /\
  (forall us, text16 us -> settled (fun p => isUtf16 T p r pred) us) /\
  (forall us, text16 us -> settled (fun p => isUcs2 T p r pred) us) /\
  (forall us, text32 us -> settled (fun p => isUcs4 T p r pred) us).
Proof.
  split; [|split; [|split]]; intros us H;
    [now apply settled_isUtf8|now apply settled_isUtf16|now apply settled_isUcs2|now apply settled_isUcs4].
Qed.
Lemma settled_to :
  (forall us, text8 us -> settled toUcs4_8 us /\ settled toUtf16_8 us /\ settled toUcs2_8 us) /\
  (forall us, text16 us -> settled toUcs4_16 us /\ settled toUtf8_16 us) /\
  (forall us, text32 us -> settled toUtf8_32 us /\ settled toUtf16_32 us /\ settled toUcs2_32 us).
Proof.
  split; [|split]; intros us H; [split; [|split]|split|split; [|split]].
  - now apply settled_toUcs4_8. - now apply settled_toUtf16_8. - now apply settled_toUcs2_8.
  - now apply settled_toUcs4_16. - now apply settled_toUtf8_16.
  - now apply settled_toUtf8_32. - now apply settled_toUtf16_32. - now apply settled_toUcs2_32.
Qed.
Lemma settled_lengths :
  (forall us, text8 us -> settled (fun p => unicodeLength8 p 0) us) /\
  (forall us, text16 us -> settled (fun p => unicodeLength16 p 0) us) /\
  (forall us, text32 us -> settled (fun p => unicodeLength32 p 0) us).
Proof. split; [exact settled_unicodeLength8|]. split; [exact settled_unicodeLength16|exact settled_unicodeLength32]. Qed.

(* ---------------------------------------------------------------- embedded zeros *)

Lemma embedded_is T r pred more :
  (forall us, text8 us -> isUtf8_string T (us ++ 0 :: more) r pred = isUtf8_string T us r pred) /\
  (forall us, text16 us -> isUtf16_string T (us ++ 0 :: more) r pred = isUtf16_string T us r pred) /\
  (forall us, text16 us -> isUcs2_string T (us ++ 0 :: more) r pred = isUcs2_string T us r pred) /\
  (forall us, text32 us -> isUcs4_string T (us ++ 0 :: more) r pred = isUcs4_string T us r pred).
Proof.
  destruct (settled_is T r pred) as (H1 & H2 & H3 & H4). split; [|split; [|split]]; intros us H.
  - exact (embedded_zero _ us more (H1 us H)). - exact (embedded_zero _ us more (H2 us H)).
  - exact (embedded_zero _ us more (H3 us H)). - exact (embedded_zero _ us more (H4 us H)).
Qed.
Lemma embedded_to more :
  (forall us, text8 us -> toUcs4_8_string (us ++ 0 :: more) = toUcs4_8_string us /\
     toUtf16_8_string (us ++ 0 :: more) = toUtf16_8_string us /\ toUcs2_8_string (us ++ 0 :: more) = toUcs2_8_string us) /\
  (forall us, text16 us -> toUcs4_16_string (us ++ 0 :: more) = toUcs4_16_string us /\
     toUtf8_16_string (us ++ 0 :: more) = toUtf8_16_string us) /\
  (forall us, text32 us -> toUtf8_32_string (us ++ 0 :: more) = toUtf8_32_string us /\
     toUtf16_32_string (us ++ 0 :: more) = toUtf16_32_string us /\ toUcs2_32_string (us ++ 0 :: more) = toUcs2_32_string us).
Proof.
  destruct settled_to as (H1 & H2 & H3).
  split; [|split]; intros us H; [destruct (H1 us H) as (A & B & C); split; [|split]|destruct (H2 us H) as (A & B); split|
    destruct (H3 us H) as (A & B & C); split; [|split]];
    first [exact (embedded_zero _ us more A) | exact (embedded_zero _ us more B) | exact (embedded_zero _ us more C)].
Qed.
Lemma embedded_lengths more :
  (forall us, text8 us -> unicodeLength8_string (us ++ 0 :: more) = unicodeLength8_string us) /\
  (forall us, text16 us -> unicodeLength16_string (us ++ 0 :: more) = unicodeLength16_string us) /\
  (forall us, text32 us -> unicodeLength32_string (us ++ 0 :: more) = unicodeLength32_string us).
Proof.
  destruct settled_lengths as (H1 & H2 & H3). split; [|split]; intros us H.
  - exact (embedded_zero _ us more (H1 us H)). - exact (embedded_zero _ us more (H2 us H)). - exact (embedded_zero _ us more (H3 us H)).
Qed.
Lemma embedded_lower T lang more :
  (forall us, text8 us -> toLower_8 T (us ++ 0 :: more) lang = toLower_8 T us lang) /\
  (forall us, text16 us -> toLower_16 T (us ++ 0 :: more) lang = toLower_16 T us lang).
Proof.
  destruct (embedded_to more) as (H1 & H2 & _). split; intros us H.
  - unfold toLower_8. now rewrite (proj1 (H1 us H)).
  - unfold toLower_16. now rewrite (proj1 (H2 us H)).
Qed.
Lemma embedded_lower_32 v lang a b : language lang -> exists ra rb,
  toLower_32 (tables v) a lang = Done ra /\ toLower_32 (tables v) b lang = Done rb /\
  toLower_32 (tables v) (a ++ 0 :: b) lang = Done (ra ++ 0 :: rb).
Proof.
  intros Hl. destruct (language_spec lang Hl) as (t & E & _).
  exists (map (mapping (tables v) t) a), (map (mapping (tables v) t) b).
  rewrite !(toLower_32_map _ _ _ _ E), map_app. cbn [map]. now rewrite zero_fixed.
Qed.

(* ---------------------------------------------------------------- null *)

Lemma null_is T t pred :
  isUtf8 T Null (code t) pred = Done true /\ isUtf16 T Null (code t) pred = Done true /\
  isUcs2 T Null (code t) pred = Done true /\ isUcs4 T Null (code t) pred = Done true.
Proof. destruct t; repeat split. Qed.
Lemma null_to src :
  toUtf8_16 Null = Done [] /\ toUtf8_32 Null = Done [] /\ toUcs2_8 Null = Done [] /\ toUcs2_32 Null = Done [] /\
  toUtf16_8 Null = Done [] /\ toUtf16_32 Null = Done [] /\ toUcs4_8 Null = Done [] /\ toUcs4_16 Null = Done [] /\
  toUtf8_cp Null src = Done [].
Proof. repeat split. Qed.
Lemma null_bounded T n pred : isUtf8_length T Null n pred = Done true /\ unicodeLength8 Null n = Done 0.
Proof. repeat split. Qed.
Lemma null_lengths n : unicodeLength16 Null n = Undefined /\ unicodeLength32 Null n = Undefined.
Proof. split; reflexivity. Qed.

(* ---------------------------------------------------------------- length-bounded calls *)

Lemma two_of_three_lead ok bs : two_of_three ok bs -> 0 < hd 0 bs.
Proof.
  intros (cs & body & b & x & -> & Hb & _ & Hl). destruct Hb as [|c s cs bs Hs Hb]; [cbn; lia|].
  pose proof (lead_of_seq _ _ Hs) as Hld. pose proof (seq_range _ _ Hs) as [Hrg _]. pose proof (seq_ne _ _ Hs).
  destruct s; [congruence|]. cbn [hd app] in *. lia.
Qed.

(* isUtf8(p, n): when it reads beyond the n bytes, and what it says when they are followed by anything *)
Lemma bounded_over T pred bs after : bytes (bs ++ after) -> bs <> [] -> len bs < 0x100000000 ->
  (isUtf8_length T (At (bs ++ after)) (len bs) pred = Undefined <->
     after = [] /\ two_of_three (fun c => pred32 T pred c = true) bs) /\
  (isUtf8_length T (At (bs ++ after)) (len bs) pred = Undefined \/
     exists b, isUtf8_length T (At (bs ++ after)) (len bs) pred = Done b).
Proof.
  intros Hb Hne Hlen. destruct (Z_lt_dec 0 (hd 0 bs)) as [Hhd|Hhd].
  - destruct (isUtf8_length_exact T pred bs after Hb Hhd Hlen) as [[Ho Hu]|[Ho (b & E & _)]].
    + split; [|now left]. split; [intros _; exact Ho|intros _; exact Hu].
    + split; [|right; eauto]. split; [rewrite E; discriminate|]. intros H. exfalso. apply Ho. exact H.
  - destruct bs as [|b bs]; [congruence|]. apply Forall_cons_inv in Hb. destruct Hb as [Hb _]. unfold byte in Hb. cbn in Hhd.
    assert (b = 0) as -> by lia. cbn [app]. rewrite isUtf8_length_zero_first. split; [|right; eauto].
    split; [discriminate|]. intros [_ H]. apply two_of_three_lead in H. cbn in H. lia.
Qed.

Lemma bounded_verdict T pred bs a after : bytes (bs ++ a :: after) -> 0 < hd 0 bs -> len bs < 0x100000000 ->
  answers Done (isUtf8_length T (At (bs ++ a :: after)) (len bs) pred) (bounded8 (fun c => pred32 T pred c = true) bs).
Proof.
  intros Hb Hhd Hlen. destruct (isUtf8_length_exact T pred bs (a :: after) Hb Hhd Hlen) as [[[H _] _]|[_ H]]; [discriminate|exact H].
Qed.
Lemma bounded_verdict_alone T pred bs : bytes bs -> 0 < hd 0 bs -> len bs < 0x100000000 ->
  ~ two_of_three (fun c => pred32 T pred c = true) bs ->
  answers Done (isUtf8_length T (At bs) (len bs) pred) (bounded8 (fun c => pred32 T pred c = true) bs).
Proof.
  intros Hb Hhd Hlen Hn. rewrite <- (app_nil_r bs) at 1. rewrite <- (app_nil_r bs) in Hb.
  destruct (isUtf8_length_exact T pred bs [] Hb Hhd Hlen) as [[[_ H] _]|[_ H]]; [contradiction|exact H].
Qed.

Lemma over_read_8 : exists bs, bytes bs /\ len bs = 3 /\
  (forall T, isUtf8_length T (At bs) 3 nullPredicate = Undefined) /\ unicodeLength8 (At bs) 3 = Undefined.
Proof. exists [0x61; 0xE2; 0x82]. split; [repeat constructor; unfold byte; lia|]. repeat split. Qed.
Lemma over_read_16 : exists us, Forall unit16 us /\ len us = 1 /\ unicodeLength16 (At us) 1 = Undefined.
Proof. exists [0x61]. split; [repeat constructor; unfold unit16; lia|]. split; reflexivity. Qed.

Lemma length8_over bs after : bytes (bs ++ after) -> bs <> [] -> len bs < 0x100000000 ->
  (unicodeLength8 (At (bs ++ after)) (len bs) = Undefined <-> after = [] /\ two_of_three upto bs) /\
  (unicodeLength8 (At (bs ++ after)) (len bs) = Undefined \/ exists v, unicodeLength8 (At (bs ++ after)) (len bs) = Done v).
Proof.
  intros Hb Hne Hlen. destruct (Z_lt_dec 0 (hd 0 bs)) as [Hhd|Hhd].
  - destruct (unicodeLength8_bounded bs after Hb Hhd Hlen) as [[Ho Hu]|[Ho [Hd _]]].
    + split; [|now left]. split; [intros _; exact Ho|intros _; exact Hu].
    + split; [|now right]. destruct Hd as (v & Hv). rewrite Hv. split; [discriminate|]. intros H. exfalso. apply Ho. exact H.
  - destruct bs as [|b bs]; [congruence|]. apply Forall_cons_inv in Hb. destruct Hb as [Hb _]. unfold byte in Hb. cbn in Hhd.
    assert (b = 0) as -> by lia. cbn [app]. rewrite unicodeLength8_zero_first. split; [|right; eauto].
    split; [discriminate|]. intros [_ H]. apply two_of_three_lead in H. cbn in H. lia.
Qed.

Lemma length16_over us after : Forall unit16 us -> us <> [] -> len us < 0x100000000 ->
  (unicodeLength16 (At (us ++ after)) (len us) = Undefined <-> after = [] /\ ends_single us) /\
  (unicodeLength16 (At (us ++ after)) (len us) = Undefined \/ exists v, unicodeLength16 (At (us ++ after)) (len us) = Done v).
Proof.
  intros Hu Hne Hlen. destruct (unicodeLength16_bounded us after Hu Hne Hlen) as [[Ho E]|[Ho [Hd _]]].
  - split; [|now left]. split; [intros _; exact Ho|intros _; exact E].
  - split; [|now right]. destruct Hd as (v & Hv). rewrite Hv. split; [discriminate|]. intros H. exfalso. apply Ho. exact H.
Qed.
Lemma length32_inside us after : Forall unit32 us -> us <> [] -> len us < 0x100000000 ->
  exists v, unicodeLength32 (At (us ++ after)) (len us) = Done v.
Proof.
  intros Hu Hne Hlen. destruct (unicodeLength32_bounded us after Hu Hne Hlen) as [H1 H2].
  destruct (Forall_dec_in (fun c => c <> 0 /\ ~ surrogate c) us) as [HF|HF].
  - intros x. destruct (surrogate_dec x), (Z.eq_dec x 0); tauto.
  - eauto.
  - eauto.
Qed.

(* ---------------------------------------------------------------- bounded against NUL-terminated *)

Lemma completable_runs_out t : completable t -> runs_out t.
Proof.
  intros (Hne & c & s & rest & Hs & E & Hr). destruct (announced_seq c s [] Hs) as [Ha Hl]. rewrite app_nil_r in Ha, Hl.
  assert (Hlen : len t < len s).
  { rewrite E, len_app. destruct rest; [congruence|]. rewrite len_cons. pose proof (len_pos rest). lia. }
  split.
  - destruct (Z_le_dec (announced t) (len t)) as [H|H]; [|lia].
    rewrite E, announced_app in Ha by assumption. rewrite E, len_app in *. pose proof (len_pos rest). lia.
  - intros H. apply Hl. rewrite E. now apply low_start_app.
Qed.

Lemma bounded8_whole ok cs body tail : utf8_text cs body -> tail = [] \/ completable tail ->
  bounded8 ok (body ++ tail) <-> Forall ok cs.
Proof.
  intros Hb Ht. induction Hb as [|c s cs bs Hs Hb IH].
  - cbn [app]. split; [constructor|]. intros _. exists [], [], tail. split; [reflexivity|]. split; [constructor|]. split; [constructor|].
    destruct Ht as [Ht|Ht]; [now left|right; left]. now apply completable_runs_out.
  - rewrite <- app_assoc, (bounded8_seq _ c) by assumption. rewrite IH. split; [intros [? ?]; now constructor|].
    intros H. apply Forall_cons_inv in H. exact H.
Qed.

Lemma completable_lead_any t : completable t -> possible_lead Utf8 (hd 0 t).
Proof.
  intros (Hne & c & s & rest & Hs & E & Hr). apply (completable_cut c s t rest Hs E Hr) in Hne. apply cut_lead in Hne.
  cbn. lia.
Qed.

Lemma completable_text8 t : completable t -> text8 t.
Proof.
  intros (Hne & c & s & rest & Hs & E & Hr). pose proof (seq_text8 _ _ Hs) as H. rewrite E in H. apply text8_app in H. tauto.
Qed.

Lemma bounded_agrees T pred cs body tail a after junk : utf8_text cs body -> tail = [] \/ completable tail -> body ++ tail <> [] ->
  bytes (a :: after) -> len (body ++ tail) < 0x100000000 ->
  isUtf8_length T (At ((body ++ tail) ++ a :: after)) (len (body ++ tail)) pred =
  isUtf8 T (At ((body ++ tail) ++ 0 :: junk)) (code Utf8) pred.
Proof.
  intros Hb Ht Hne Ha Hlen.
  assert (T8 : text8 (body ++ tail)).
  { apply text8_app. split; [now apply utf8_text_text8 in Hb|]. destruct Ht as [->|Ht]; [constructor|now apply completable_text8]. }
  assert (Hby : bytes ((body ++ tail) ++ a :: after)).
  { apply bytes_app. split; [|exact Ha]. eapply Forall_impl; [|exact T8]. unfold byte. cbn. lia. }
  assert (Hhd : 0 < hd 0 (body ++ tail)).
  { destruct (body ++ tail); [congruence|]. apply Forall_cons_inv in T8. cbn. lia. }
  pose proof (bounded_verdict T pred _ a after Hby Hhd Hlen) as H1.
  pose proof (isUtf8_exact T (body ++ tail) junk Utf8 pred T8) as H2.
  apply (answers_eq H1 H2). rewrite (bounded8_whole _ cs body tail Hb Ht).
  pose proof (utf8_text_range _ _ Hb) as Hrg.
  assert (Hok : Forall (fun c => pred32 T pred c = true) cs <-> Forall (fun c => range_isUtf8 Utf8 c /\ pred32 T pred c = true) cs).
  { apply (Forall_iff_in encodable8); [|exact Hrg]. intros c Hc. unfold encodable8 in Hc. unfold range_isUtf8, documented. tauto. }
  rewrite Hok. split.
  - intros H. exists cs, body, tail. split; [reflexivity|]. split; [assumption|]. split; [assumption|].
    destruct Ht as [Ht|Ht]; [now left|right]. split; [|now apply completable_lead_any].
    destruct Ht as (Hn & c & s & rest & Hs & E & Hr). exact (completable_cut c s tail rest Hs E Hr Hn).
  - intros (cs' & body' & tail' & E & Hb' & Hf & Ht').
    assert (R1 : reads_as cs (body ++ tail)).
    { exists body, tail. split; [reflexivity|]. split; [assumption|]. destruct Ht as [Ht|(Hn & c & s & rest & Hs & E' & Hr)]; [now left|right].
      exact (completable_cut c s tail rest Hs E' Hr Hn). }
    assert (R2 : reads_as cs' (body ++ tail)) by (rewrite E; exists body', tail'; tauto).
    rewrite (reads_as_unique _ _ _ R1 R2). exact Hf.
Qed.

Lemma bounded_too_lax : exists bs, text8 bs /\
  (forall T a after, bytes (a :: after) -> isUtf8_length T (At (bs ++ a :: after)) (len bs) nullPredicate = Done true) /\
  (forall T junk, isUtf8 T (At (bs ++ 0 :: junk)) (code Utf8) nullPredicate = Done false).
Proof.
  exists [0xE2; 0x41]. split; [range|]. split; [|reflexivity]. intros T a after Ha.
  destruct (bounded_verdict T nullPredicate [0xE2; 0x41] a after) as (b & E & Hb); [|cbn; lia|cbn; lia|].
  - apply bytes_app. split; [repeat constructor; unfold byte; lia|exact Ha].
  - rewrite E. f_equal. apply Hb. exists [], [], [0xE2; 0x41]. split; [reflexivity|]. split; [constructor|]. split; [constructor|].
    right. left. split; [reflexivity|]. cbn. lia.
Qed.
Lemma bounded_too_strict : exists bs, text8 bs /\
  (forall T a after, bytes (a :: after) -> isUtf8_length T (At (bs ++ a :: after)) (len bs) nullPredicate = Done false) /\
  (forall T junk, isUtf8 T (At (bs ++ 0 :: junk)) (code Utf8) nullPredicate = Done true).
Proof.
  exists [0xED; 0xB0]. split; [range|]. split; [|reflexivity]. intros T a after Ha.
  assert (Hl : low_start [0xED; 0xB0]) by (cbn; lia).
  destruct (bounded_verdict T nullPredicate [0xED; 0xB0] a after) as (b & E & Hb); [|cbn; lia|cbn; lia|].
  - apply bytes_app. split; [repeat constructor; unfold byte; lia|exact Ha].
  - rewrite E. f_equal. destruct b; [|reflexivity]. pose proof (proj1 Hb eq_refl) as H.
    apply bounded8_no_seq in H; [|now apply no_seq_low|discriminate]. destruct H as [[_ H]|(t & m & _ & _ & H)]; tauto.
Qed.

(* ---------------------------------------------------------------- unicodeLength *)

Lemma tail_length8 : exists cs body tail, utf8_text cs body /\ completable tail /\
  (forall junk, unicodeLength8 (At ((body ++ tail) ++ 0 :: junk)) 0 <> Done (len cs)) /\
  (forall junk, unicodeLength8 (At ((body ++ tail) ++ 0 :: junk)) 0 = Done 0xFFFFFFFF) .
Proof.
  exists [], [], [0xE2; 0x82]. split; [constructor|]. split; [exact case_completable|]. split; [discriminate|reflexivity].
Qed.
Lemma tail_length16 : exists cs body h, utf16_text cs body /\ high_surrogate h /\
  (forall junk, unicodeLength16 (At ((body ++ [h]) ++ 0 :: junk)) 0 <> Done (len cs)).
Proof.
  exists [0x41], [0x41], 0xD83D. split; [|split; [unfold high_surrogate; lia|discriminate]].
  split; [|reflexivity]. constructor; [|constructor]. split; [lia|unfold surrogate; lia].
Qed.
Lemma tail_exact8 cs body tail junk : utf8_text cs body -> Forall upto cs -> cut_short tail -> text8 tail ->
  unicodeLength8 (At ((body ++ tail) ++ 0 :: junk)) 0 = Done (wrap32 (len cs - 1)).
Proof.
  intros Hb Hu Ht T8. apply (unicodeLength8_exact (body ++ tail) junk) with body tail; auto.
  apply text8_app. split; [now apply utf8_text_text8 in Hb|assumption].
Qed.
Lemma tail_exact16 cs body h junk : utf16_text cs body -> high_surrogate h ->
  unicodeLength16 (At ((body ++ [h]) ++ 0 :: junk)) 0 = Done (wrap32 (len cs - 1)).
Proof.
  intros Hb Hh. apply (unicodeLength16_exact (body ++ [h]) junk) with body h; auto.
  apply Forall_app. split; [now apply utf16_text_text16 in Hb|]. constructor; [unfold high_surrogate in Hh; lia|constructor].
Qed.

Lemma count8 bs junk : text8 bs ->
  (forall cs, utf8_text cs bs -> Forall upto cs -> unicodeLength8 (At (bs ++ 0 :: junk)) 0 = Done (wrap32 (len cs))) /\
  ((forall cs, reads_as cs bs -> ~ Forall upto cs) -> unicodeLength8 (At (bs ++ 0 :: junk)) 0 = Done 0).
Proof. intros H. destruct (unicodeLength8_exact bs junk H) as (H1 & _ & H3). split; assumption. Qed.
Lemma count16 us junk : text16 us ->
  (forall cs, utf16_text cs us -> unicodeLength16 (At (us ++ 0 :: junk)) 0 = Done (wrap32 (len cs))) /\
  ((forall cs, ~ reads_as16 cs us) -> unicodeLength16 (At (us ++ 0 :: junk)) 0 = Done 0).
Proof. intros H. destruct (unicodeLength16_exact us junk H) as (H1 & _ & H3). split; assumption. Qed.

(* ---------------------------------------------------------------- bounded unicodeLength *)

Lemma bounded_count8_exact bs a after : bytes (bs ++ a :: after) -> 0 < hd 0 bs -> len bs < 0x100000000 ->
  bounded_count8 bs (fun v => unicodeLength8 (At (bs ++ a :: after)) (len bs) = Done v).
Proof.
  intros Hb Hhd Hlen. destruct (unicodeLength8_bounded bs (a :: after) Hb Hhd Hlen) as [[[H _] _]|[_ H]]; [discriminate|exact H].
Qed.
Lemma bounded_count16_exact us a after : Forall unit16 us -> us <> [] -> len us < 0x100000000 ->
  bounded_count16 us (fun v => unicodeLength16 (At (us ++ a :: after)) (len us) = Done v).
Proof.
  intros Hb Hne Hlen. destruct (unicodeLength16_bounded us (a :: after) Hb Hne Hlen) as [[[H _] _]|[_ H]]; [discriminate|exact H].
Qed.
Lemma bounded_cut8 cs body tail a after : utf8_text cs body -> Forall upto cs -> tail = [] \/ completable tail -> body ++ tail <> [] ->
  bytes (a :: after) -> len (body ++ tail) < 0x100000000 ->
  unicodeLength8 (At ((body ++ tail) ++ a :: after)) (len (body ++ tail)) = Done (len cs).
Proof.
  intros Hb Hu Ht Hne Ha Hlen.
  assert (T8 : text8 (body ++ tail)).
  { apply text8_app. split; [now apply utf8_text_text8 in Hb|]. destruct Ht as [->|Ht]; [constructor|now apply completable_text8]. }
  apply (bounded_count8_exact (body ++ tail) a after) with body tail; auto.
  - apply bytes_app. split; [|exact Ha]. eapply Forall_impl; [|exact T8]. unfold byte. cbn. lia.
  - destruct (body ++ tail); [congruence|]. apply Forall_cons_inv in T8. cbn. lia.
  - destruct Ht as [Ht|Ht]; [now left|right; left; now apply completable_runs_out].
Qed.
Lemma bounded_cut16 cs body tail a after : utf16_text cs body -> tail = [] \/ (exists h, tail = [h] /\ high_surrogate h) ->
  body ++ tail <> [] -> len (body ++ tail) < 0x100000000 ->
  unicodeLength16 (At ((body ++ tail) ++ a :: after)) (len (body ++ tail)) = Done (len cs).
Proof.
  intros Hb Ht Hne Hlen. apply (bounded_count16_exact (body ++ tail) a after) with body tail; auto.
  apply Forall_app. split.
  - apply utf16_text_text16 in Hb. eapply Forall_impl; [|exact Hb]. unfold unit16. cbn. lia.
  - destruct Ht as [->|(h & -> & Hh)]; [constructor|]. constructor; [unfold unit16, high_surrogate in *; lia|constructor].
Qed.

(* a zero inside a sequence, and a byte that starts nothing *)
Lemma zero_in_sequence : exists bs, bytes bs /\ In 0 bs /\ 0 < hd 0 bs /\
  unicodeLength8 (At (bs ++ [0])) (len bs) = Done 0xFFFFFFFF.
Proof.
  exists [0xC3; 0; 0x41]. split; [repeat constructor; unfold byte; lia|]. split; [cbn; tauto|]. split; [cbn; lia|reflexivity].
Qed.
Lemma stray_byte : exists bs, text8 bs /\ (forall cs, ~ reads_as cs bs) /\ unicodeLength8 (At (bs ++ [0])) (len bs) = Done 1.
Proof.
  exists [0x41; 0x80; 0x42]. split; [range|]. split; [|reflexivity]. intros cs H.
  assert (Hs : utf8_seq 0x41 [0x41]) by (apply (seq_plain 0x41); unfold encodable8, surrogate; lia).
  change [0x41; 0x80; 0x42] with ([0x41] ++ [0x80; 0x42]) in H. apply (reads_as_seq_inv _ _ _ _ Hs) in H.
  destruct H as (cs' & _ & body & tail & E & Hb & Ht).
  assert (Hn : no_seq [0x80; 0x42]) by (apply no_seq_lead; left; reflexivity).
  destruct (text_front cs' body tail _ Hb E Hn) as [_ ->]. cbn in E. subst tail.
  destruct Ht as [Ht|Ht]; [discriminate|]. apply cut_lead in Ht. cbn in Ht. lia.
Qed.
