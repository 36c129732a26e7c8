(* the wchar_t entry points *)
From Coq Require Import ZArith List Bool Lia ZifyBool.
From Verif Require Import Machine.
From Verif.Model Require Import Internal Tables Predicate Str CodePage Wide.
From Verif.Spec Require Import Utf Target Result.
From Verif.Proof Require Import Bits Encode DecodeFacts TextFacts ToFuncs IsFuncs Lenient LengthFuncs Round Consequences CodePageFacts.
Import ListNotations.
Local Open Scope Z_scope.

(* std::wstring(s.c_str()) keeps a string without zeros *)
Lemma basic_string_at us junk : Forall nonzero us -> basic_string (At (us ++ 0 :: junk)) = Done us.
Proof. exact (cstring_copy_spec us junk). Qed.
Lemma basic_string_c_str us : Forall nonzero us -> basic_string (c_str us) = Done us.
Proof. exact (cstring_copy_spec us []). Qed.
Lemma text32_nonzero us : text32 us -> Forall nonzero us.
Proof. intros H. eapply Forall_impl; [|exact H]. unfold nonzero. cbn beta. lia. Qed.
Lemma text16_nonzero us : text16 us -> Forall nonzero us.
Proof. intros H. eapply Forall_impl; [|exact H]. unfold nonzero. cbn beta. lia. Qed.
Lemma encodable8_nonzero cs : Forall encodable8 cs -> Forall nonzero cs.
Proof. intros H. eapply Forall_impl; [|exact H]. unfold nonzero, encodable8. cbn beta. lia. Qed.
Lemma scalars_text16 cs : Forall scalar cs -> text16 (flat_map utf16_units cs).
Proof. intros H. apply (utf16_text_text16 cs). now split. Qed.
Lemma scalars_text32 cs : Forall scalar cs -> text32 cs.
Proof. intros H. eapply Forall_impl; [|exact H]. unfold scalar. cbn beta. lia. Qed.
Lemma scalars_text8 cs : Forall scalar cs -> text8 (flat_map utf8_bytes cs).
Proof. intros H. exact (utf8_text_text8 _ _ (utf8_text_flat cs (scalars_encodable8 _ H))). Qed.
Lemma scalars_reads cs : Forall scalar cs -> reads_as cs (flat_map utf8_bytes cs).
Proof. intros H. apply reads_as_text, utf8_text_flat, scalars_encodable8, H. Qed.
Lemma scalars_reads16 cs : Forall scalar cs -> reads_as16 cs (flat_map utf16_units cs).
Proof. intros H. apply utf16_text_reads. now split. Qed.
Lemma reads16_scalars cs us : reads_as16 cs us -> Forall scalar cs.
Proof. intros (body & tail & _ & [H _] & _). exact H. Qed.

(* a check followed by a copy *)
Lemma check_copy (check : ptr -> outcome bool) P us junk : answers Done (check (At (us ++ 0 :: junk))) P -> Forall nonzero us ->
  (P -> (do ok <- check (At (us ++ 0 :: junk)); if ok then basic_string (At (us ++ 0 :: junk)) else Done []) = Done us) /\
  (~ P -> (do ok <- check (At (us ++ 0 :: junk)); if ok then basic_string (At (us ++ 0 :: junk)) else Done []) = Done []).
Proof.
  intros (b & E & Hb) Hz. rewrite E. cbn [bind]. split; intros HP.
  - apply Hb in HP. subst b. now apply basic_string_at.
  - destruct b; [exfalso; apply HP, Hb; reflexivity|reflexivity].
Qed.

(* ---------------------------------------------------------------- 32-bit wchar_t *)

Lemma w32_checks T us junk : text32 us -> let p := At (us ++ 0 :: junk) in
  answers Done (w32_isUtf8 T p) (Forall (range_isUcs4 Utf16) us) /\ answers Done (w32_isUtf16 T p) (Forall (range_isUcs4 Utf16) us) /\
  answers Done (w32_isUcs4 T p) (Forall (range_isUcs4 Utf16) us) /\ answers Done (w32_isUcs2 T p) (Forall bmp us).
Proof.
  intros H p. pose proof (isUcs4_null_exact T us junk Utf16 H) as A. pose proof (isUcs4_null_exact T us junk Ucs2 H) as B.
  repeat split; [exact A|exact A|exact A|exact B].
Qed.
Lemma w32_to us junk : text32 us -> let p := At (us ++ 0 :: junk) in
  encodes_or_empty encodable8 utf8_bytes us (w32_toUtf8 p) /\ encodes_or_empty scalar utf16_units us (w32_toUtf16 p) /\
  encodes_or_empty bmp (fun c => [c]) us (w32_toUcs2 p).
Proof. intros H p. split; [|split]; [now apply toUtf8_32_exact|now apply toUtf16_32_exact|now apply toUcs2_32_exact]. Qed.
Lemma w32_copies T us junk : text32 us -> let p := At (us ++ 0 :: junk) in
  (Forall (range_isUcs4 Utf16) us -> w32_toUcs4 T p = Done us /\ w32_toWstring_32 T p = Done us) /\
  (~ Forall (range_isUcs4 Utf16) us -> w32_toUcs4 T p = Done [] /\ w32_toWstring_32 T p = Done []).
Proof.
  intros H p. destruct (check_copy (fun p => isUcs4 T p kUtf16 nullPredicate) _ us junk (isUcs4_null_exact T us junk Utf16 H) (text32_nonzero _ H)) as [A B].
  split; intros HP; (split; [now apply A || now apply B|now apply A || now apply B]).
Qed.
Lemma w32_from8 bs junk : text8 bs -> exact_conversion (fun cs => reads_as cs bs) (fun cs => cs) (w32_toWstring_8 (At (bs ++ 0 :: junk))).
Proof.
  intros H. destruct (toUcs4_8_exact bs junk H) as [A B]. unfold w32_toWstring_8. split.
  - intros cs Hr. rewrite (A cs Hr). cbn [bind]. apply basic_string_c_str, encodable8_nonzero. exact (reads_as_range _ _ Hr).
  - intros Hn. now rewrite (B Hn).
Qed.
Lemma w32_from16 us junk : text16 us -> exact_conversion (fun cs => reads_as16 cs us) (fun cs => cs) (w32_toWstring_16 (At (us ++ 0 :: junk))).
Proof.
  intros H. destruct (toUcs4_16_exact us junk H) as [A B]. unfold w32_toWstring_16. split.
  - intros cs Hr. rewrite (A cs Hr). cbn [bind]. apply basic_string_c_str, encodable8_nonzero, scalars_encodable8.
    exact (reads16_scalars _ _ Hr).
  - intros Hn. now rewrite (B Hn).
Qed.

(* there and back *)
Lemma w32_inverse T cs : Forall scalar cs -> exists b u,
  w32_toUtf8 (c_str cs) = Done b /\ w32_toWstring_8 (c_str b) = Done cs /\ w32_toUtf16 (c_str cs) = Done u /\ w32_toWstring_16 (c_str u) = Done cs /\
  w32_toUcs4 T (c_str cs) = Done cs /\ w32_toWstring_32 T (c_str cs) = Done cs.
Proof.
  intros H. exists (flat_map utf8_bytes cs), (flat_map utf16_units cs). pose proof (scalars_text32 _ H) as H32.
  destruct (w32_to cs [] H32) as (A & B & _). destruct (w32_copies T cs [] H32) as [C _].
  split; [apply A, scalars_encodable8, H|]. split; [apply (w32_from8 _ [] (scalars_text8 _ H)), scalars_reads, H|].
  split; [apply B, H|]. split; [apply (w32_from16 _ [] (scalars_text16 _ H)), scalars_reads16, H|].
  apply C. eapply Forall_impl; [|exact H]. unfold range_isUcs4, scalar, surrogate. cbn beta. lia.
Qed.

Lemma w32_says8 T bs junk : text8 bs -> w32_isWstring_8 T (At (bs ++ 0 :: junk)) = Done true ->
  exists cs, reads_as cs bs /\ w32_toWstring_8 (At (bs ++ 0 :: junk)) = Done cs.
Proof.
  intros H E. destruct (guarantee_8_ucs4 T bs junk Utf16 H E) as (cs & Hr & _ & _). exists cs. split; [exact Hr|].
  now apply (w32_from8 bs junk H).
Qed.
Lemma w32_says16 T us junk : text16 us -> w32_isWstring_16 T (At (us ++ 0 :: junk)) = Done true ->
  exists cs, reads_as16 cs us /\ w32_toWstring_16 (At (us ++ 0 :: junk)) = Done cs.
Proof.
  intros H E. destruct (guarantee_16 T us junk Ucs4 H E) as (cs & Hr & _). exists cs. split; [exact Hr|].
  now apply (w32_from16 us junk H).
Qed.
Lemma w32_says32 T us junk : text32 us -> w32_isWstring_32 T (At (us ++ 0 :: junk)) = Done true ->
  w32_toWstring_32 T (At (us ++ 0 :: junk)) = Done us.
Proof.
  intros H E. apply (w32_copies T us junk H). exact (answers_true_inv (isUcs4_null_exact T us junk Utf16 H) E).
Qed.

(* ---------------------------------------------------------------- 16-bit wchar_t *)

Lemma utf16_flat_bmp cs : Forall bmp cs -> flat_map utf16_units cs = cs.
Proof.
  intros H. induction H as [|c cs [Hc _] _ IH]; [reflexivity|]. cbn [flat_map]. rewrite IH, utf16_units_bmp by lia. reflexivity.
Qed.

Lemma w16_checks T us junk : text16 us -> let p := At (us ++ 0 :: junk) in
  answers Done (w16_isUtf8 T p) (exists cs, reads_as16 cs us) /\ answers Done (w16_isUtf16 T p) (exists cs, reads_as16 cs us) /\
  answers Done (w16_isUcs4 T p) (exists cs, reads_as16 cs us) /\ answers Done (w16_isUcs2 T p) (Forall bmp us).
Proof.
  intros H p.
  assert (Hall : forall t, (forall c, scalar c -> documented t c) -> supplementary_target t ->
     answers Done (isUtf16 T p (code t) nullPredicate) (exists cs, reads_as16 cs us)).
  { intros t Ht Hsup. destruct (isUtf16_null_exact T us junk t H) as (b & E & Hb). exists b. split; [exact E|]. rewrite Hb. split.
    - intros Ha. apply acc16_reads in Ha. destruct Ha as (cs & Hr & _). eauto.
    - intros (cs & body & tail & -> & Hc & Htl). exists cs, body, tail. split; [reflexivity|]. split; [exact Hc|].
      split; [eapply Forall_impl; [exact Ht|exact (proj1 Hc)]|]. destruct Htl as [->|Htl]; auto. }
  split; [|split; [|split]].
  - apply (Hall Utf8); [unfold scalar, documented, surrogate; intros; lia|split; discriminate].
  - apply (Hall Utf8); [unfold scalar, documented, surrogate; intros; lia|split; discriminate].
  - apply (Hall Ucs4); [unfold scalar, documented, surrogate; intros; lia|split; discriminate].
  - destruct (isUtf16_null_exact T us junk Ucs2 H) as (b & E & Hb). exists b. split; [exact E|]. rewrite Hb. split.
    + intros (cs & body & tail & -> & Hc & Hf & [->|[[_ Hx] _]]); [|congruence]. destruct Hc as [_ ->].
      rewrite app_nil_r, (utf16_flat_bmp cs Hf). exact Hf.
    + intros Hf. exists us, us, []. split; [now rewrite app_nil_r|]. split; [|split; [exact Hf|now left]].
      split; [eapply Forall_impl; [|exact Hf]; unfold bmp, scalar, surrogate; cbn beta; lia|now rewrite utf16_flat_bmp].
Qed.

Lemma w16_to us junk : text16 us -> let p := At (us ++ 0 :: junk) in
  exact_conversion (fun cs => lenient_as16 cs us) (flat_map utf8_bytes) (w16_toUtf8 p) /\
  exact_conversion (fun cs => reads_as16 cs us) (fun cs => cs) (w16_toUcs4 p).
Proof. intros H p. split; [now apply toUtf8_16_exact|now apply toUcs4_16_exact]. Qed.

Lemma acceptable16_all us : acceptable16 (documented Utf16) (supplementary_target Utf16) us <-> exists cs, reads_as16 cs us.
Proof.
  split.
  - intros (cs & body & tail & -> & Hc & _ & Ht). exists cs, body, tail. split; [reflexivity|]. split; [exact Hc|]. tauto.
  - intros (cs & body & tail & -> & Hc & Ht). exists cs, body, tail. split; [reflexivity|]. split; [exact Hc|]. split; [exact (proj1 Hc)|].
    destruct Ht as [Ht|Ht]; [now left|right]. split; [split; discriminate|exact Ht].
Qed.
Lemma w16_copies T us junk : text16 us -> let p := At (us ++ 0 :: junk) in
  ((exists cs, reads_as16 cs us) -> w16_toUtf16 T p = Done us /\ w16_toWstring_16 T p = Done us) /\
  ((forall cs, ~ reads_as16 cs us) -> w16_toUtf16 T p = Done [] /\ w16_toWstring_16 T p = Done []).
Proof.
  intros H p. destruct (check_copy (fun p => isUtf16 T p kUtf16 nullPredicate) _ us junk (isUtf16_null_exact T us junk Utf16 H) (text16_nonzero _ H)) as [A B].
  split; intros HP.
  - apply acceptable16_all in HP. split; now apply A.
  - assert (~ acceptable16 (documented Utf16) (supplementary_target Utf16) us) as Hn by (rewrite acceptable16_all; intros [cs Hcs]; exact (HP cs Hcs)).
    split; now apply B.
Qed.
Lemma w16_ucs2 T us junk : text16 us -> encodes_or_empty bmp (fun c => [c]) us (w16_toUcs2 T (At (us ++ 0 :: junk))).
Proof.
  intros H. destruct (check_copy (fun p => isUcs2 T p kUcs2 nullPredicate) _ us junk (isUcs2_null_exact T us junk Ucs2 H) (text16_nonzero _ H)) as [A B].
  assert (Hiff : Forall bmp us <-> Forall (fun c => bmp c /\ documented Ucs2 c) us)
    by (split; intros HF; (eapply Forall_impl; [|exact HF]); cbn; tauto).
  split; intros HP; rewrite Hiff in HP.
  - rewrite flat_map_single. now apply A.
  - now apply B.
Qed.
Lemma w16_from8 bs junk : text8 bs -> exact_conversion (fun cs => reads_as cs bs /\ Forall upto cs) (flat_map utf16_units)
  (w16_toWstring_8 (At (bs ++ 0 :: junk))).
Proof.
  intros H. destruct (toUtf16_8_exact bs junk H) as [A B]. unfold w16_toWstring_8. split.
  - intros cs Hr. rewrite (A cs Hr). cbn [bind]. apply basic_string_c_str, text16_nonzero, scalars_text16.
    apply encodable_upto_scalar; [exact (reads_as_range _ _ (proj1 Hr))|exact (proj2 Hr)].
  - intros Hn. now rewrite (B Hn).
Qed.
Lemma w16_from32 us junk : text32 us -> encodes_or_empty scalar utf16_units us (w16_toWstring_32 (At (us ++ 0 :: junk))).
Proof.
  intros H. destruct (toUtf16_32_exact us junk H) as [A B]. unfold w16_toWstring_32. split.
  - intros Hs. rewrite (A Hs). cbn [bind]. now apply basic_string_c_str, text16_nonzero, scalars_text16.
  - intros Hn. now rewrite (B Hn).
Qed.
Lemma w16_inverse T cs us : utf16_text cs us -> exists b,
  w16_toUtf8 (c_str us) = Done b /\ w16_toWstring_8 (c_str b) = Done us /\ w16_toUcs4 (c_str us) = Done cs /\ w16_toWstring_32 (c_str cs) = Done us /\
  w16_toUtf16 T (c_str us) = Done us /\ w16_toWstring_16 T (c_str us) = Done us.
Proof.
  intros [H ->]. exists (flat_map utf8_bytes cs). pose proof (scalars_text16 _ H) as H16. pose proof (scalars_reads16 _ H) as Hr.
  destruct (w16_to _ [] H16) as (A & B). destruct (w16_copies T _ [] H16) as [C _].
  split; [apply A, reads_lenient, Hr|]. split; [apply (w16_from8 _ [] (scalars_text8 _ H)); split; [now apply scalars_reads|now apply scalars_upto]|].
  split; [now apply B|]. split; [now apply (w16_from32 _ [] (scalars_text32 _ H))|]. apply C. eauto.
Qed.

Lemma w16_says8 T bs junk : text8 bs -> w16_isWstring_8 T (At (bs ++ 0 :: junk)) = Done true ->
  exists cs, reads_as cs bs /\ Forall (range_isUtf8 Utf16) cs /\
    (Forall upto cs -> w16_toWstring_8 (At (bs ++ 0 :: junk)) = Done (flat_map utf16_units cs)) /\
    (~ Forall upto cs -> w16_toWstring_8 (At (bs ++ 0 :: junk)) = Done []).
Proof.
  intros H E. destruct (guarantee_8_ucs4 T bs junk Utf16 H E) as (cs & Hr & Hf & _). exists cs. split; [exact Hr|]. split; [exact Hf|].
  destruct (w16_from8 bs junk H) as [A B]. split; intros Hu; [now apply A|]. apply B. intros cs' [Hr' Hu'].
  apply Hu. now rewrite (reads_as_unique _ _ _ Hr Hr').
Qed.
Lemma w16_says16 T us junk : text16 us -> w16_isWstring_16 T (At (us ++ 0 :: junk)) = Done true ->
  w16_toWstring_16 T (At (us ++ 0 :: junk)) = Done us.
Proof.
  intros H E. apply (w16_copies T us junk H). apply acceptable16_all. exact (answers_true_inv (isUtf16_null_exact T us junk Utf16 H) E).
Qed.
Lemma w16_says32 T us junk : text32 us -> w16_isWstring_32 T (At (us ++ 0 :: junk)) = Done true ->
  Forall (range_isUcs4 Utf16) us /\
    (Forall upto us -> w16_toWstring_32 (At (us ++ 0 :: junk)) = Done (flat_map utf16_units us)) /\
    (~ Forall upto us -> w16_toWstring_32 (At (us ++ 0 :: junk)) = Done []).
Proof.
  intros H E. pose proof (answers_true_inv (isUcs4_null_exact T us junk Utf16 H) E) as Hf. split; [exact Hf|].
  assert (Hiff : Forall scalar us <-> Forall upto us).
  { split; intros HF; rewrite Forall_forall in *; intros c Hc; specialize (HF c Hc); specialize (Hf c Hc);
      unfold range_isUcs4, scalar, surrogate, upto in *; lia. }
  destruct (w16_from32 us junk H) as [A B]. rewrite Hiff in A, B. auto.
Qed.

(* false in general: the checks let values above 0x10FFFF pass, the conversion does not *)
Lemma w16_big_refuted : exists bs us, forall T, w16_isWstring_8 T (c_str bs) = Done true /\ w16_toWstring_8 (c_str bs) = Done [] /\ bs <> [] /\
  w16_isWstring_32 T (c_str us) = Done true /\ w16_toWstring_32 (c_str us) = Done [] /\ us <> [].
Proof. exists [0x41; 0xF4; 0x90; 0x80; 0x80], [0x41; 0x110000]. intros T. repeat split; discriminate. Qed.
(* and a lone high surrogate at the end is copied although it is no code point *)
Lemma w16_tail_refuted : exists cs us, reads_as16 cs us /\ forall T, w16_isWstring_16 T (c_str us) = Done true /\
  w16_toWstring_16 T (c_str us) <> Done (flat_map utf16_units cs).
Proof.
  exists [0x41], [0x41; 0xD83D]. split.
  - exists [0x41], [0xD83D]. split; [reflexivity|]. split; [split; [repeat constructor; unfold surrogate; lia|reflexivity]|right].
    exists 0xD83D. split; [reflexivity|]. unfold high_surrogate. lia.
  - intros T. split; [reflexivity|discriminate].
Qed.
