(* the WIN32 helpers, the shortened overloads, the version string *)
From Coq Require Import ZArith List Bool Lia ZifyBool String.
From Verif Require Import Machine.
From Verif.Model Require Import Internal Tables Predicate Str CodePage Sugar Tchar.
From Verif.Spec Require Import Utf Target Result Version.
From Verif.Proof Require Import Bits Encode DecodeFacts TextFacts ToFuncs IsFuncs Lenient LengthFuncs Round Consequences CodePageFacts WideFacts.
Import ListNotations.
Local Open Scope Z_scope.

(* ---------------------------------------------------------------- shortened overloads *)

Lemma cut_short_lead t : cut_short t -> possible_lead Utf8 (hd 0 t).
Proof. intros H. unfold possible_lead. inversion H; subst; cbn [hd]; unfold lead in *; lia. Qed.
Lemma acceptable8_all bs : acceptable8 (range_isUtf8 Utf8) (possible_lead Utf8) bs <-> exists cs, reads_as cs bs.
Proof.
  split.
  - intros (cs & body & tail & -> & Hc & _ & Ht). exists cs, body, tail. split; [reflexivity|]. split; [exact Hc|]. tauto.
  - intros (cs & body & tail & -> & Hc & Ht). exists cs, body, tail. split; [reflexivity|]. split; [exact Hc|]. split.
    + pose proof (reads_as_range _ _ (reads_as_text _ _ Hc)) as Hr. eapply Forall_impl; [|exact Hr].
      intros c Hc0. unfold encodable8 in Hc0. unfold range_isUtf8, documented. tauto.
    + destruct Ht as [Ht|Ht]; [now left|right]. split; [exact Ht|]. now apply cut_short_lead.
Qed.
Lemma bare8 T bs junk : text8 bs -> answers Done (isUtf8_bare T (At (bs ++ 0 :: junk))) (exists cs, reads_as cs bs).
Proof.
  intros H. destruct (isUtf8_null_exact T bs junk Utf8 H) as (b & E & Hb). exists b. split; [exact E|]. now rewrite Hb, acceptable8_all.
Qed.
Lemma bare16 T us junk : text16 us -> answers Done (isUtf16_bare T (At (us ++ 0 :: junk))) (exists cs, reads_as16 cs us).
Proof.
  intros H. destruct (isUtf16_null_exact T us junk Utf16 H) as (b & E & Hb). exists b. split; [exact E|]. now rewrite Hb, acceptable16_all.
Qed.
Lemma bare2 T us junk : text16 us -> answers Done (isUcs2_bare T (At (us ++ 0 :: junk))) (Forall bmp us).
Proof.
  intros H. destruct (isUcs2_null_exact T us junk Ucs2 H) as (b & E & Hb). exists b. split; [exact E|]. rewrite Hb.
  split; intros HF; (eapply Forall_impl; [|exact HF]); cbn; tauto.
Qed.
Lemma bare32 T us junk : text32 us -> answers Done (isUcs4_bare T (At (us ++ 0 :: junk))) (Forall (fun c => ~ surrogate c) us).
Proof.
  intros H. destruct (isUcs4_null_exact T us junk Ucs4 H) as (b & E & Hb). exists b. split; [exact E|]. rewrite Hb.
  split; intros HF; unfold text32 in H; rewrite Forall_forall in *; intros c Hc; specialize (HF c Hc); specialize (H c Hc);
    unfold range_isUcs4, documented in *; tauto.
Qed.
(* a bare check of UTF-8 is the same as "toUcs4 converts it" *)
Lemma bare8_converts T bs junk : text8 bs -> isUtf8_bare T (At (bs ++ 0 :: junk)) = Done true ->
  exists cs, reads_as cs bs /\ toUcs4_8 (At (bs ++ 0 :: junk)) = Done cs.
Proof.
  intros H E. destruct (answers_true_inv (bare8 T bs junk H) E) as [cs Hr]. exists cs. split; [exact Hr|]. now apply (toUcs4_8_exact bs junk H).
Qed.
Lemma bare8_rejects T bs junk : text8 bs -> isUtf8_bare T (At (bs ++ 0 :: junk)) = Done false -> toUcs4_8 (At (bs ++ 0 :: junk)) = Done [].
Proof.
  intros H E. apply (toUcs4_8_exact bs junk H). intros cs Hr. destruct (bare8 T bs junk H) as (b & E' & Hb). rewrite E in E'. injection E' as <-.
  assert (false = true) by (apply Hb; eauto). discriminate.
Qed.
Lemma sugar8 T bs junk pred : text8 bs -> isUtf8_pred T (At (bs ++ 0 :: junk)) pred = Done true <->
  exists cs, reads_as cs bs /\ Forall (fun c => pred32 T pred c = true) cs.
Proof.
  intros H. unfold isUtf8_pred. change kUtf8 with (code Utf8). rewrite (restrict_isUtf8 T bs junk Utf8 pred H). split.
  - intros [E HF]. destruct (answers_true_inv (bare8 T bs junk H) E) as [cs Hr]. eauto.
  - intros (cs & Hr & HF). split.
    + destruct (bare8 T bs junk H) as (b & E & Hb). change (isUtf8_bare T (At (bs ++ 0 :: junk)) = Done true). rewrite E. f_equal. apply Hb. eauto.
    + intros cs' Hr'. now rewrite (reads_as_unique _ _ _ Hr' Hr).
Qed.
Lemma sugar16 T us junk pred : text16 us -> isUtf16_pred T (At (us ++ 0 :: junk)) pred = Done true <->
  exists cs, reads_as16 cs us /\ Forall (fun c => pred16 T pred (hd 0 (utf16_units c)) = true) cs.
Proof.
  intros H. unfold isUtf16_pred. change kUtf16 with (code Utf16). rewrite (restrict_isUtf16 T us junk Utf16 pred H). split.
  - intros [E HF]. destruct (answers_true_inv (bare16 T us junk H) E) as [cs Hr]. eauto.
  - intros (cs & Hr & HF). split.
    + destruct (bare16 T us junk H) as (b & E & Hb). change (isUtf16_bare T (At (us ++ 0 :: junk)) = Done true). rewrite E. f_equal. apply Hb. eauto.
    + intros cs' Hr'. now rewrite (reads16_unique us cs' cs H Hr' Hr).
Qed.
Lemma sugar2 T us junk pred : text16 us -> isUcs2_pred T (At (us ++ 0 :: junk)) pred = Done true <->
  Forall bmp us /\ Forall (fun c => pred16 T pred c = true) us.
Proof.
  intros H. unfold isUcs2_pred. change kUcs2 with (code Ucs2). rewrite (restrict_isUcs2 T us junk Ucs2 pred H).
  destruct (bare2 T us junk H) as (b & E & Hb). change (isUcs2 T (At (us ++ 0 :: junk)) (code Ucs2) nullPredicate) with (isUcs2_bare T (At (us ++ 0 :: junk))).
  rewrite E, <- Hb. split; intros [A B]; (split; [congruence|assumption]).
Qed.
Lemma sugar32 T us junk pred : text32 us -> isUcs4_pred T (At (us ++ 0 :: junk)) pred = Done true <->
  Forall (fun c => ~ surrogate c) us /\ Forall (fun c => pred32 T pred c = true) us.
Proof.
  intros H. unfold isUcs4_pred. change kUcs4 with (code Ucs4). rewrite (restrict_isUcs4 T us junk Ucs4 pred H).
  destruct (bare32 T us junk H) as (b & E & Hb). change (isUcs4 T (At (us ++ 0 :: junk)) (code Ucs4) nullPredicate) with (isUcs4_bare T (At (us ++ 0 :: junk))).
  rewrite E, <- Hb. split; intros [A B]; (split; [congruence|assumption]).
Qed.

(* ---------------------------------------------------------------- WIN32 *)

Lemma narrow_checks T bs junk : text8 bs -> let p := At (bs ++ 0 :: junk) in
  answers Done (narrow_isUtf16 T p) (acceptable8 (range_isUtf8 Utf16) (possible_lead Utf16) bs) /\
  answers Done (narrow_isUcs2 T p) (acceptable8 (documented Ucs2) (possible_lead Ucs2) bs) /\
  answers Done (narrow_isUcs4 T p) (exists cs, reads_as cs bs).
Proof.
  intros H p. split; [exact (isUtf8_null_exact T bs junk Utf16 H)|]. split; [exact (isUtf8_null_exact T bs junk Ucs2 H)|].
  destruct (isUtf8_null_exact T bs junk Ucs4 H) as (b & E & Hb). exists b. split; [exact E|]. rewrite Hb, <- acceptable8_all.
  split; intros (cs & body & tail & E1 & Hc & Hf & Ht); exists cs, body, tail; (split; [exact E1|]); (split; [exact Hc|]); (split; [|exact Ht]);
    pose proof (reads_as_range _ _ (reads_as_text _ _ Hc)) as Hr; (eapply Forall_impl; [|exact Hr]); intros c; unfold encodable8, range_isUtf8, documented, surrogate; lia.
Qed.
Lemma text8_nonzero bs : text8 bs -> Forall nonzero bs.
Proof. intros H. eapply Forall_impl; [|exact H]. unfold nonzero. cbn beta. lia. Qed.
Lemma narrow_copies T bs junk : text8 bs ->
  ((exists cs, reads_as cs bs) -> narrow_toUtf8 T (At (bs ++ 0 :: junk)) = Done bs) /\
  ((forall cs, ~ reads_as cs bs) -> narrow_toUtf8 T (At (bs ++ 0 :: junk)) = Done []).
Proof.
  intros H. destruct (check_copy (isUtf8_bare T) _ bs junk (bare8 T bs junk H) (text8_nonzero _ H)) as [A B].
  split; intros HP; [now apply A|]. apply B. intros [cs Hr]. exact (HP cs Hr).
Qed.

Lemma ascii_text cs bs : utf8_text cs bs -> Forall ascii cs -> bs = cs.
Proof.
  intros H. induction H as [|c s cs bs Hs _ IH]; intros Ha; [reflexivity|]. apply Forall_cons_inv in Ha. destruct Ha as [Hc Ha].
  rewrite (IH Ha). inversion Hs; subst.
  - pose proof (ascii_flat8 [c] (Forall_cons _ Hc (Forall_nil _))) as E. cbn [flat_map] in E. rewrite app_nil_r in E. now rewrite E.
  - unfold ascii in Hc. lia.
Qed.
Lemma ascii_acceptable bs : text8 bs -> acceptable8 (documented Ascii) (possible_lead Ascii) bs <-> Forall ascii bs.
Proof.
  intros H8. split.
  - intros (cs & body & tail & -> & Hc & Hf & Ht). apply Forall_app. split.
    + rewrite (ascii_text _ _ Hc Hf). exact Hf.
    + destruct Ht as [->|[Hcut Hl]]; [constructor|]. exfalso. unfold possible_lead in Hl. inversion Hcut; subst; cbn [hd] in Hl; unfold lead in *; lia.
  - intros Hb. exists bs, bs, []. split; [now rewrite app_nil_r|]. split; [|split; [exact Hb|now left]].
    rewrite <- (ascii_flat8 bs Hb) at 2. apply utf8_text_flat. eapply Forall_impl; [|exact Hb]. unfold ascii, encodable8, surrogate. cbn beta. lia.
Qed.
Lemma mbcs_8 T bs junk : text8 bs ->
  (Forall ascii bs -> mbcs_toTstring_8 T (At (bs ++ 0 :: junk)) = Done bs) /\
  (~ Forall ascii bs -> mbcs_toTstring_8 T (At (bs ++ 0 :: junk)) = Done []).
Proof.
  intros H. destruct (check_copy (fun p => isUtf8 T p kAscii nullPredicate) _ bs junk (isUtf8_null_exact T bs junk Ascii H) (text8_nonzero _ H)) as [A B].
  split; intros HP; [apply A|apply B]; [apply ascii_acceptable; assumption|]. intros Ha. apply HP. now apply ascii_acceptable in Ha.
Qed.
Lemma ascii_bmp cs : Forall ascii cs -> Forall bmp cs.
Proof. intros H. eapply Forall_impl; [|exact H]. unfold ascii, bmp, surrogate. cbn beta. lia. Qed.
Lemma ascii_scalar cs : Forall ascii cs -> Forall scalar cs.
Proof. intros H. eapply Forall_impl; [|exact H]. unfold ascii, scalar, surrogate. cbn beta. lia. Qed.
Lemma ascii_acceptable16 us : acceptable16 (documented Ascii) (supplementary_target Ascii) us <-> Forall ascii us.
Proof.
  split.
  - intros (cs & body & tail & -> & [_ ->] & Hf & [->|[[Hx _] _]]); [|congruence]. rewrite app_nil_r, utf16_flat_bmp by (apply ascii_bmp, Hf). exact Hf.
  - intros H. exists us, us, []. split; [now rewrite app_nil_r|]. split; [|split; [exact H|now left]].
    split; [now apply ascii_scalar|]. now rewrite utf16_flat_bmp by apply ascii_bmp, H.
Qed.
Lemma ascii_nonzero us : Forall ascii us -> Forall nonzero us.
Proof. intros H. eapply Forall_impl; [|exact H]. unfold ascii, nonzero. cbn beta. lia. Qed.
Lemma mbcs_16 T us junk : text16 us ->
  (Forall ascii us -> mbcs_toTstring_16 T (At (us ++ 0 :: junk)) = Done us) /\
  (~ Forall ascii us -> mbcs_toTstring_16 T (At (us ++ 0 :: junk)) = Done []).
Proof.
  intros H. destruct (isUtf16_null_exact T us junk Ascii H) as (b & E & Hb). rewrite ascii_acceptable16 in Hb.
  unfold mbcs_toTstring_16. change kAscii with (code Ascii). rewrite E. cbn [bind]. split; intros HP.
  - replace b with true by (symmetry; now apply Hb).
    assert (Hr : reads_as16 us us).
    { rewrite <- (utf16_flat_bmp us (ascii_bmp _ HP)) at 2. apply scalars_reads16, ascii_scalar, HP. }
    rewrite (proj1 (toUtf8_16_exact us junk H) us (reads_lenient _ _ Hr)). cbn [bind]. rewrite ascii_flat8 by exact HP.
    apply basic_string_c_str, ascii_nonzero, HP.
  - destruct b; [exfalso; apply HP, Hb; reflexivity|reflexivity].
Qed.
Lemma mbcs_32 T us junk : text32 us ->
  (Forall ascii us -> mbcs_toTstring_32 T (At (us ++ 0 :: junk)) = Done us) /\
  (~ Forall ascii us -> mbcs_toTstring_32 T (At (us ++ 0 :: junk)) = Done []).
Proof.
  intros H. destruct (isUcs4_null_exact T us junk Ascii H) as (b & E & Hb).
  change (Forall (range_isUcs4 Ascii) us) with (Forall ascii us) in Hb.
  unfold mbcs_toTstring_32. change kAscii with (code Ascii). rewrite E. cbn [bind]. split; intros HP.
  - replace b with true by (symmetry; now apply Hb).
    rewrite (proj1 (toUtf8_32_exact us junk H) (scalars_encodable8 _ (ascii_scalar _ HP))). cbn [bind]. rewrite ascii_flat8 by exact HP.
    apply basic_string_c_str, ascii_nonzero, HP.
  - destruct b; [exfalso; apply HP, Hb; reflexivity|reflexivity].
Qed.

(* never returns *)
Lemma basic_string_returns us : exists r, basic_string (c_str us) = Done r.
Proof.
  unfold basic_string, c_str. induction us as [|u us [r IH]]; [exists []; reflexivity|]. cbn [app cstring_copy].
  destruct (u =? 0); [exists []; reflexivity|]. rewrite IH. cbn [bind]. eauto.
Qed.
Lemma mbcs_string_loops : forall fuel test, mbcs_toTstring_string fuel test = OutOfFuel.
Proof.
  induction fuel as [|fuel IH]; intros test; [reflexivity|]. cbn [mbcs_toTstring_string].
  destruct (basic_string_returns test) as [r ->]. cbn [bind]. apply IH.
Qed.
Lemma mbcs_string_refuted : exists test, forall T r, mbcs_toTstring_8 T (c_str test) = Done test /\ forall fuel, mbcs_toTstring_string fuel test <> Done r.
Proof.
  exists [0x41]. intros T r. split; [|intros fuel; rewrite mbcs_string_loops; discriminate].
  apply (mbcs_8 T [0x41] []); repeat constructor; lia.
Qed.

Lemma unicode_8 bs junk : text8 bs -> exact_conversion (fun cs => reads_as cs bs /\ Forall upto cs) (flat_map utf16_units)
  (unicode_toTstring_8 (At (bs ++ 0 :: junk))).
Proof. exact (w16_from8 bs junk). Qed.
Lemma unicode_16 us junk : Forall nonzero us -> unicode_toTstring_16 (At (us ++ 0 :: junk)) = Done us.
Proof. exact (basic_string_at us junk). Qed.
Lemma unicode_32 us junk : text32 us -> encodes_or_empty scalar utf16_units us (unicode_toTstring_32 (At (us ++ 0 :: junk))).
Proof. exact (w16_from32 us junk). Qed.

(* ---------------------------------------------------------------- isTstring against toTstring *)

(* é passes the check in all three encodings and is then dropped *)
Lemma mbcs_says_refuted : exists bs us, forall T, isTstring_8 T (c_str bs) = Done true /\ mbcs_toTstring_8 T (c_str bs) = Done [] /\ bs <> [] /\
  isTstring_16 T (c_str us) = Done true /\ mbcs_toTstring_16 T (c_str us) = Done [] /\ us <> [] /\
  isTstring_32 T (c_str us) = Done true /\ mbcs_toTstring_32 T (c_str us) = Done [].
Proof. exists [0xC3; 0xA9], [0xE9]. intros T. repeat split; discriminate. Qed.
Lemma unicode_says_refuted : exists bs us, forall T, isTstring_8 T (c_str bs) = Done true /\ unicode_toTstring_8 (c_str bs) = Done [] /\ bs <> [] /\
  isTstring_32 T (c_str us) = Done true /\ unicode_toTstring_32 (c_str us) = Done [] /\ us <> [].
Proof. exact w16_big_refuted. Qed.
(* text the check rejects is passed on *)
Lemma unicode_unchecked_refuted : exists us, forall T, isTstring_16 T (c_str us) = Done false /\ unicode_toTstring_16 (c_str us) = Done us.
Proof. exists [0xDC00; 0x41]. intros T. split; reflexivity. Qed.
Lemma unicode_says_8 T bs junk : text8 bs -> isTstring_8 T (At (bs ++ 0 :: junk)) = Done true ->
  exists cs, reads_as cs bs /\ Forall (range_isUtf8 Utf16) cs /\
    (Forall upto cs -> unicode_toTstring_8 (At (bs ++ 0 :: junk)) = Done (flat_map utf16_units cs)) /\
    (~ Forall upto cs -> unicode_toTstring_8 (At (bs ++ 0 :: junk)) = Done []).
Proof. exact (w16_says8 T bs junk). Qed.
Lemma unicode_says_32 T us junk : text32 us -> isTstring_32 T (At (us ++ 0 :: junk)) = Done true ->
  Forall (range_isUcs4 Utf16) us /\
    (Forall upto us -> unicode_toTstring_32 (At (us ++ 0 :: junk)) = Done (flat_map utf16_units us)) /\
    (~ Forall upto us -> unicode_toTstring_32 (At (us ++ 0 :: junk)) = Done []).
Proof. exact (w16_says32 T us junk). Qed.

(* null pointers *)
Lemma narrow_null T : narrow_isUtf16 T Null = Done true /\ narrow_isUcs2 T Null = Done true /\ narrow_isUcs4 T Null = Done true /\
  narrow_toUtf8 T Null = Undefined /\ mbcs_toTstring_8 T Null = Undefined /\ mbcs_toTstring_16 T Null = Done [] /\ mbcs_toTstring_32 T Null = Done [] /\
  unicode_toTstring_8 Null = Done [] /\ unicode_toTstring_16 Null = Undefined /\ unicode_toTstring_32 Null = Done [].
Proof. repeat split. Qed.

(* ---------------------------------------------------------------- version *)

Lemma version_string v : getUnicodeVersionSupported (tables v) = append (decimal (number v)) ".0.0"%string.
Proof. destruct v; reflexivity. Qed.
Lemma narrow_null_refuted : exists p, forall T, narrow_isUtf16 T p = Done true /\ narrow_isUcs2 T p = Done true /\ narrow_isUcs4 T p = Done true /\
  narrow_toUtf8 T p = Undefined.
Proof. exists Null. intros T. repeat split. Qed.
Lemma case_scalars : Forall scalar [0x41; 0x1F600].
Proof. repeat constructor; unfold surrogate; lia. Qed.

Lemma unicode_strings test : unicode_toTstring_8_string test = unicode_toTstring_8 (c_str test) /\
  unicode_toTstring_16_string test = unicode_toTstring_16 (c_str test) /\
  unicode_toTstring_32_string test = unicode_toTstring_32 (c_str test).
Proof. repeat split. Qed.
