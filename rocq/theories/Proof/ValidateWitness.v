(* What the property file on the is-functions (Props/Validate.v) quotes: guarantees for any
   predicate, invalid targets, and the concrete cases and counterexamples. *)
From Coq Require Import ZArith List Bool Lia ZifyBool.
From Verif Require Import Machine.
From Verif.Model Require Import Internal Decode Tables Predicate Str.
From Verif.Spec Require Import Utf Target Result.
From Verif.Proof Require Import Bits Encode DecodeFacts TextFacts ToFuncs IsFuncs LengthFuncs Round Consequences Calls Witness Classes.
Import ListNotations.
Local Open Scope Z_scope.

(* ---------------------------------------------------------------- the documented verdict is not the verdict *)

Lemma seq_f490 c s rest : utf8_seq c s -> s = 0xF4 :: 0x90 :: rest -> 0x110000 <= c.
Proof.
  intros Hs E. destruct Hs as [c [Hc Hns]|c Hc].
  - pose proof (utf8_bytes_shape c ltac:(lia)) as S. rewrite E in S. inversion S; subst; lia.
  - destruct (utf16_units_supp c Hc) as (h & l & Eu & Hh & Hl & _). rewrite Eu in E. cbn [flat_map] in E.
    unfold high_surrogate in Hh.
    destruct (surrogate_shape h _ ltac:(unfold surrogate; lia) (utf8_bytes_shape h ltac:(lia))) as (a & b & E1 & _).
    rewrite E1 in E. discriminate E.
Qed.

Lemma above_unicode_text : utf8_text [0x110000] [0xF4; 0x90; 0x80; 0x80].
Proof. apply (text_cons 0x110000 [0xF4; 0x90; 0x80; 0x80] [] []); [apply (seq_plain 0x110000); range|constructor]. Qed.

(* documented texts read as their code points *)
Lemma documented8_reads t bs : documented8 t bs -> exists cs, reads_as cs bs /\ Forall (documented t) cs.
Proof.
  intros (cs & body & tail & -> & Hb & Hf & Ht). exists cs. split; [|assumption]. exists body, tail. repeat split; auto.
  destruct Ht as [->|Ht]; [now left|right]. now apply completable_lead in Ht.
Qed.

Lemma utf16_target_too_wide : exists bs, text8 bs /\ (forall T, isUtf8 T (At (bs ++ [0])) (code Utf16) nullPredicate = Done true) /\
  ~ documented8 Utf16 bs /\ toUtf16_8 (At (bs ++ [0])) = Done [].
Proof.
  exists [0xF4; 0x90; 0x80; 0x80]. split; [range|]. split; [reflexivity|]. split; [|reflexivity]. intros H.
  apply documented8_reads in H. destruct H as (cs & Hr & Hf).
  rewrite (reads_as_unique _ _ _ Hr (reads_as_text _ _ above_unicode_text)) in Hf.
  apply Forall_cons_inv in Hf. destruct Hf as [Hf _]. cbn in Hf. unfold scalar in Hf. lia.
Qed.

(* a tail no character of any range starts with *)
Lemma impossible_tail : exists bs, text8 bs /\ (forall T, isUtf8 T (At (bs ++ [0])) (code Utf8) nullPredicate = Done true) /\
  ~ documented8 Utf8 bs.
Proof.
  exists [0xC0]. split; [range|]. split; [reflexivity|]. intros (cs & body & tail & E & Hb & _ & Ht).
  destruct Hb as [|c s cs' bs' Hs Hb].
  - cbn in E. subst tail. destruct Ht as [Ht|(_ & c & s & rest & Hs & _ & E & _)]; [discriminate Ht|].
    exact (seq_from_c0 _ _ _ Hs E).
  - destruct s as [|x s].
    + now apply seq_ne in Hs.
    + cbn in E. injection E as <- E. exact (seq_from_c0 _ _ _ Hs eq_refl).
Qed.

Lemma isUcs4_too_wide : exists us, text32 us /\ (forall T, isUcs4 T (At (us ++ [0])) (code Utf16) nullPredicate = Done true) /\
  ~ Forall (documented Utf16) us /\ toUtf16_32 (At (us ++ [0])) = Done [].
Proof.
  exists [0x110000]. split; [range|]. split; [reflexivity|]. split; [|reflexivity]. intros H.
  apply Forall_cons_inv in H. destruct H as [H _]. cbn in H. unfold scalar in H. lia.
Qed.

(* ---------------------------------------------------------------- re-encoding, whatever the predicate *)

Lemma reencode_8 T bs junk t pred : text8 bs -> isUtf8 T (At (bs ++ 0 :: junk)) (code t) pred = Done true ->
  exists cs, reads_as cs bs /\ toUcs4_8 (At (bs ++ 0 :: junk)) = Done cs /\
    (t = Ascii \/ t = Ucs2 -> toUcs2_8 (At (bs ++ 0 :: junk)) = Done cs) /\
    (t = Ascii \/ t = Ucs2 \/ t = Unicode \/ (t = Utf16 /\ Forall upto cs) ->
       toUtf16_8 (At (bs ++ 0 :: junk)) = Done (flat_map utf16_units cs)).
Proof.
  intros H E. apply (restrict_isUtf8 T bs junk t pred H) in E. destruct E as [E _].
  apply (answers_true_inv (isUtf8_null_exact T bs junk t H)), acceptable8_reads in E.
  destruct E as (cs & Hr & Hf). exists cs. split; [assumption|]. split; [now apply (toUcs4_8_exact bs junk H)|]. split; intros Ht.
  - apply (toUcs2_8_exact bs junk H). split; [assumption|]. eapply Forall_impl; [|exact Hf]. intros c.
    destruct Ht as [-> | ->]; cbn; unfold bmp; lia.
  - apply (toUtf16_8_exact bs junk H). split; [assumption|]. destruct Ht as [Ht|[Ht|[Ht|[_ Ht]]]]; [..|exact Ht];
    (eapply Forall_impl; [|exact Hf]); intros c; subst t; cbn; unfold bmp, scalar; lia.
Qed.

Lemma reencode_16 T us junk t pred : text16 us -> isUtf16 T (At (us ++ 0 :: junk)) (code t) pred = Done true ->
  exists cs, reads_as16 cs us /\ Forall (documented t) cs /\ toUcs4_16 (At (us ++ 0 :: junk)) = Done cs /\
    toUtf8_16 (At (us ++ 0 :: junk)) = Done (flat_map utf8_bytes cs).
Proof. intros H E. apply (restrict_isUtf16 T us junk t pred H) in E. destruct E as [E _]. exact (guarantee_16 T us junk t H E). Qed.

Lemma reencode_ucs2 T us junk t pred : text16 us -> isUcs2 T (At (us ++ 0 :: junk)) (code t) pred = Done true ->
  toUcs4_16 (At (us ++ 0 :: junk)) = Done us /\ toUtf8_16 (At (us ++ 0 :: junk)) = Done (flat_map utf8_bytes us).
Proof. intros H E. apply (restrict_isUcs2 T us junk t pred H) in E. destruct E as [E _]. exact (guarantee_ucs2 T us junk t H E). Qed.

Lemma reencode_32 T us junk t pred : text32 us -> isUcs4 T (At (us ++ 0 :: junk)) (code t) pred = Done true ->
  (t <> Ucs4 -> toUtf8_32 (At (us ++ 0 :: junk)) = Done (flat_map utf8_bytes us)) /\
  (t = Ascii \/ t = Ucs2 -> toUcs2_32 (At (us ++ 0 :: junk)) = Done us) /\
  (t = Ascii \/ t = Ucs2 \/ t = Unicode \/ (t = Utf16 /\ Forall upto us) ->
     toUtf16_32 (At (us ++ 0 :: junk)) = Done (flat_map utf16_units us)).
Proof.
  intros H E. apply (restrict_isUcs4 T us junk t pred H) in E. destruct E as [E _].
  split; [|split]; intros Ht.
  - apply (guarantee_32_utf8 T us junk t H); [|exact E]. intros c. unfold encodable8.
    destruct t; cbn; unfold bmp, scalar, surrogate; lia || congruence.
  - apply (guarantee_32_ucs2 T us junk t H); [|exact E]. intros c.
    destruct Ht as [-> | ->]; cbn; unfold bmp, surrogate; lia.
  - destruct Ht as [Ht|[Ht|[Ht|[-> Ht]]]].
    1-3: (apply (guarantee_32_utf16 T us junk t H); [|exact E]; intros c; subst t; cbn; unfold bmp, scalar, surrogate; lia).
    apply (answers_true_inv (isUcs4_null_exact T us junk Utf16 H)) in E.
    apply (toUtf16_32_exact us junk H). pose proof (proj2 (Forall_and_iff _ _ us) (conj E Ht)) as HH.
    eapply Forall_impl; [|exact HH]. intros c. cbn. unfold scalar, upto, surrogate. lia.
Qed.

(* ---------------------------------------------------------------- invalid targets, empty and null *)

Lemma invalid_target T r pred p : ~ (0 <= r <= 5) ->
  isUtf8 T p r pred = Done false /\ isUtf16 T p r pred = Done false /\ isUcs2 T p r pred = Done false /\ isUcs4 T p r pred = Done false.
Proof. intros H. apply badRange_spec in H. unfold isUtf8, isUtf8_impl, isUtf16, isUcs2, isUcs4. now rewrite H. Qed.

Lemma empty_accepted T r pred p : 0 <= r <= 5 -> p = Null \/ (exists junk, p = At (0 :: junk)) ->
  isUtf8 T p r pred = Done true /\ isUtf16 T p r pred = Done true /\ isUcs2 T p r pred = Done true /\ isUcs4 T p r pred = Done true.
Proof.
  intros H Hp. assert (E : badRange r = false).
  { destruct (badRange r) eqn:E; [|reflexivity]. apply badRange_spec in E. lia. }
  unfold isUtf8, isUtf8_impl, isUtf16, isUcs2, isUcs4. rewrite E. destruct Hp as [->|[junk ->]]; repeat split.
Qed.

(* ---------------------------------------------------------------- predicates *)

(* UTF-16 text: the predicate is given the first unit, so supplementary characters are judged by
   their high surrogate, which is never assigned *)
Lemma surrogate_judged v : let us := [0xD83D; 0xDE00] in
  utf16_text [0x1F600] us /\ isUtf16_string (tables v) us kUtf16 nullPredicate = Done true /\
  pred32 (tables v) (validIf kIsAssigned) 0x1F600 = true /\
  isUtf16_string (tables v) us kUtf16 (validIf kIsAssigned) = Done false /\
  isUcs4_string (tables v) [0x1F600] kUtf16 (validIf kIsAssigned) = Done true /\
  isUtf8_string (tables v) [0xF0; 0x9F; 0x98; 0x80] kUtf16 (validIf kIsAssigned) = Done true.
Proof. cbn zeta. split; [split; [range|reflexivity]|]. destruct v; repeat split; vm_compute; reflexivity. Qed.

Lemma utf16_predicate_refuted : exists us cs, text16 us /\ reads_as16 cs us /\ forall v,
  isUtf16 (tables v) (At (us ++ [0])) kUtf16 nullPredicate = Done true /\
  Forall (fun c => pred32 (tables v) (validIf kIsAssigned) c = true) cs /\
  isUtf16 (tables v) (At (us ++ [0])) kUtf16 (validIf kIsAssigned) = Done false.
Proof.
  exists [0xD83D; 0xDE00], [0x1F600]. pose proof (surrogate_judged V7) as (H & _). split; [range|].
  split; [now apply utf16_text_reads|]. intros v. pose proof (surrogate_judged v) as (_ & H1 & H2 & H3 & _).
  split; [exact H1|]. split; [now constructor|exact H3].
Qed.

Lemma encoding_matters : exists cs bs us, utf8_text cs bs /\ utf16_text cs us /\ forall v,
  isUtf16_string (tables v) us kUtf16 (validIf kIsAssigned) = Done false /\
  isUtf8_string (tables v) bs kUtf16 (validIf kIsAssigned) = Done true /\
  isUcs4_string (tables v) cs kUtf16 (validIf kIsAssigned) = Done true.
Proof.
  exists [0x1F600], [0xF0; 0x9F; 0x98; 0x80], [0xD83D; 0xDE00].
  split; [apply (text_cons 0x1F600 [0xF0; 0x9F; 0x98; 0x80] [] []); [apply (seq_plain 0x1F600); range|constructor]|].
  split; [apply (surrogate_judged V7)|]. intros v. pose proof (surrogate_judged v) as (_ & _ & _ & H1 & H2 & H3). auto.
Qed.

Lemma restrict_ucs2_32 v us junk t pred : text16 us ->
  isUcs2 (tables v) (At (us ++ 0 :: junk)) (code t) pred = Done true <->
  isUcs2 (tables v) (At (us ++ 0 :: junk)) (code t) nullPredicate = Done true /\
  Forall (fun c => pred32 (tables v) pred c = true) us.
Proof.
  intros H. rewrite (restrict_isUcs2 (tables v) us junk t pred H).
  apply and_iff_compat_l. apply (Forall_iff_in (fun u => 0 < u < 0x10000)); [|exact H].
  intros c Hc. now rewrite pred16_32 by lia.
Qed.

(* the UTF-16 case with the characters that are one unit long *)
Lemma restrict_utf16_bmp v us junk t pred : text16 us -> Forall bmp us ->
  isUtf16 (tables v) (At (us ++ 0 :: junk)) (code t) pred = Done true <->
  isUtf16 (tables v) (At (us ++ 0 :: junk)) (code t) nullPredicate = Done true /\
  Forall (fun c => pred32 (tables v) pred c = true) us.
Proof.
  intros H Hb. rewrite (restrict_isUtf16 (tables v) us junk t pred H). apply and_iff_compat_l.
  assert (Hr : reads_as16 us us).
  { apply utf16_text_reads. split; [eapply Forall_impl; [|exact Hb]; apply bmp_scalar|].
    rewrite (flat_map_ext_in _ (fun c => [c])); [now rewrite flat_map_single|].
    intros c Hc. rewrite Forall_forall in Hb. apply utf16_units_bmp. specialize (Hb c Hc). unfold bmp in Hb. lia. }
  assert (Hi : Forall (fun c => pred16 (tables v) pred (hd 0 (utf16_units c)) = true) us <->
               Forall (fun c => pred32 (tables v) pred c = true) us).
  { apply (Forall_iff_in bmp); [|exact Hb]. intros c Hc. unfold bmp in Hc.
    rewrite utf16_units_bmp by lia. cbn [hd]. now rewrite pred16_32 by lia. }
  split.
  - intros HH. apply Hi. now apply HH.
  - intros HH cs Hcs. rewrite (reads16_unique us cs us H Hcs Hr). now apply Hi.
Qed.

Lemma verdict_bmp v cs bs t pred : utf8_text cs bs -> Forall bmp cs ->
  isUtf8_string (tables v) bs (code t) pred = isUcs4_string (tables v) cs (code t) pred /\
  isUtf16_string (tables v) cs (code t) pred = isUcs4_string (tables v) cs (code t) pred /\
  isUcs2_string (tables v) cs (code t) pred = isUcs4_string (tables v) cs (code t) pred.
Proof.
  intros Hb Hc. split; [apply verdict_8_32; [assumption|right; eapply Forall_impl; [|exact Hc]; apply bmp_scalar]|].
  apply verdict_16_32; [|exact Hc]. intros c [H _]. apply pred16_32. lia.
Qed.

(* ---------------------------------------------------------------- cases *)
Lemma case_documented8 : documented8 Unicode [0x41; 0xE2; 0x82].
Proof.
  exists [0x41], [0x41], [0xE2; 0x82]. split; [reflexivity|].
  split; [apply (text_cons 0x41 [0x41]); [apply (seq_plain 0x41); range|constructor]|]. split; [range|].
  right. split; [discriminate|]. exists 0x20AC, [0xE2; 0x82; 0xAC], [0xAC].
  split; [apply (seq_plain 0x20AC); range|]. split; [range|]. split; [reflexivity|discriminate].
Qed.
Lemma case_unassigned : reads_as [0x41; 0x378] [0x41; 0xCD; 0xB8].
Proof.
  apply reads_as_text. apply (text_cons 0x41 [0x41]); [apply (seq_plain 0x41); range|].
  apply (text_cons 0x378 [0xCD; 0xB8] [] []); [apply (seq_plain 0x378); range|constructor].
Qed.
Lemma ascii_narrowest : narrower Ascii Ucs4.
Proof. eauto using narrower. Qed.

(* ---------------------------------------------------------------- consequences of the exact answers *)
Lemma documented8_true T bs junk t : text8 bs -> documented8 t bs ->
  isUtf8 T (At (bs ++ 0 :: junk)) (code t) nullPredicate = Done true.
Proof. intros H Hd. apply (answers_true (isUtf8_null_exact T bs junk t H)). now apply documented8_accepted. Qed.

Lemma answers_iff r P Q : (P <-> Q) -> answers Done r P -> answers Done r Q.
Proof. intros H (b & E & Hb). exists b. split; [assumption|]. now rewrite Hb. Qed.

Lemma whole_texts T cs bs junk t : t <> Utf16 -> utf8_text cs bs ->
  answers Done (isUtf8 T (At (bs ++ 0 :: junk)) (code t) nullPredicate) (Forall (documented t) cs).
Proof.
  intros Ht Hb. eapply answers_iff; [|apply isUtf8_null_exact; eapply utf8_text_text8; exact Hb].
  now apply accepted_documented8.
Qed.

Lemma isUcs4_other_targets T us junk t : text32 us -> t <> Utf16 ->
  answers Done (isUcs4 T (At (us ++ 0 :: junk)) (code t) nullPredicate) (Forall (documented t) us).
Proof. intros H Ht. pose proof (isUcs4_null_exact T us junk t H) as A. destruct t; try exact A. congruence. Qed.
