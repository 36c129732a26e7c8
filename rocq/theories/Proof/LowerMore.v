(* toLower against the other functions: verdicts, trimming, splitting, sizes. *)
From Coq Require Import ZArith List Bool Lia ZifyBool.
From Verif Require Import Machine.
From Verif.Model Require Import Tables Predicate Str Lower SplitJoin Trim.
From Verif.Spec Require Import Utf Target Result Ucd Lowercase Case Text.
From Verif.Proof Require Import Bits IsFuncs ToFuncs Round TextFacts Consequences Calls Classes TablesFacts LowerTools CaseFacts LowerPairs SplitFacts TrimFacts PrefixFacts.
Import ListNotations.
Local Open Scope Z_scope.

Lemma mapping_cases v b c : unit32 c -> mapping (tables v) b c = c \/
  scalar c /\ scalar (mapping (tables v) b c) /\ (c < 0x10000 <-> mapping (tables v) b c < 0x10000) /\
  0x20 < c /\ 0x20 < mapping (tables v) b c /\ size8 (mapping (tables v) b c) <= 2 * size8 c.
Proof.
  intros Hc. destruct (Z.eq_dec (mapping (tables v) b c) c) as [E|Hne]; [now left|right]. now apply mapping_moved.
Qed.
Lemma text32_unit s : text32 s -> Forall unit32 s.
Proof. apply Forall_impl. unfold unit32. lia. Qed.
Lemma mapping_text32 v b s : text32 s -> text32 (map (mapping (tables v) b) s).
Proof.
  intros H. unfold text32. rewrite Forall_map. eapply Forall_impl; [|exact H]. cbn beta. intros c Hc.
  destruct (mapping_cases v b c) as [->|(_ & Hs & _)]; [unfold unit32; lia|assumption|unfold scalar in Hs; lia].
Qed.
Lemma Forall_map_iff (P : Z -> Prop) (R : Z -> Prop) (f : Z -> Z) s : (forall c, R c -> P (f c) <-> P c) -> Forall R s -> Forall P (map f s) <-> Forall P s.
Proof.
  intros H HR. rewrite Forall_map. induction HR as [|c s Hc _ IH]; [now split; constructor|].
  split; intros F; inversion F; subst; constructor; try (now apply IH); now apply (H c Hc).
Qed.

(* ------------------------------------------------------------------ *)
(* Verdicts                                                            *)
(* ------------------------------------------------------------------ *)
Lemma range_isUcs4_mapping v b t c : t <> Ascii -> unit32 c -> range_isUcs4 t (mapping (tables v) b c) <-> range_isUcs4 t c.
Proof.
  intros Ht Hc. destruct (mapping_cases v b c Hc) as [->|(H1 & H2 & H3 & _)]; [reflexivity|].
  unfold scalar in *. destruct t; cbn; unfold bmp, scalar, surrogate in *; try congruence; lia.
Qed.
Lemma range_isUtf8_mapping v b t c : t <> Ascii -> unit32 c -> range_isUtf8 t (mapping (tables v) b c) <-> range_isUtf8 t c.
Proof.
  intros Ht Hc. destruct (mapping_cases v b c Hc) as [->|(H1 & H2 & H3 & _)]; [reflexivity|].
  unfold scalar in *. destruct t; cbn; unfold bmp, scalar, surrogate in *; try congruence; lia.
Qed.
Lemma documented_mapping v b t c : t <> Ascii -> unit32 c -> documented t (mapping (tables v) b c) <-> documented t c.
Proof.
  intros Ht Hc. destruct (mapping_cases v b c Hc) as [->|(H1 & H2 & H3 & _)]; [reflexivity|].
  unfold scalar in *. destruct t; cbn; unfold bmp, scalar, surrogate in *; try congruence; lia.
Qed.

Lemma lower_verdict_32 v lang s t pred : language lang -> text32 s -> t <> Ascii -> exists low,
  toLower_32 (tables v) s lang = Done low /\
  isUcs4_string (tables v) low (code t) pred = isUcs4_string (tables v) s (code t) pred.
Proof.
  intros H Hs Ht. destruct (language_spec lang H) as (b & E & _). exists (map (mapping (tables v) b) s).
  split; [now apply toLower_32_map|].
  apply (answers_eq (isUcs4_exact (tables v) _ [] t pred (mapping_text32 v b s Hs)) (isUcs4_exact (tables v) s [] t pred Hs)).
  apply (Forall_map_iff _ unit32); [|now apply text32_unit]. intros c Hc. cbn beta.
  rewrite (range_isUcs4_mapping v b t c Ht Hc), (mapping_pred v b pred c Hc). reflexivity.
Qed.
Lemma lower_verdict_8 v lang cs bs t pred : language lang -> utf8_text cs bs -> t <> Ascii -> exists low,
  toLower_8 (tables v) bs lang = Done low /\
  isUtf8_string (tables v) low (code t) pred = isUtf8_string (tables v) bs (code t) pred.
Proof.
  intros H Hb Ht. pose proof (utf8_text_text8 _ _ Hb) as T8. pose proof (reads_as_text _ _ Hb) as Hr.
  destruct (lower_8 v lang bs cs H T8 Hr) as (low & El & E8 & _). exists (flat_map utf8_bytes low). split; [exact E8|].
  destruct (language_spec lang H) as (b & E & _). rewrite (toLower_32_map _ _ _ _ E) in El. injection El as <-.
  pose proof (reads_as_range _ _ Hr) as He.
  assert (He' : Forall encodable8 (map (mapping (tables v) b) cs)).
  { rewrite Forall_map. eapply Forall_impl; [|exact He]. intros c Hc. cbn beta.
    destruct (mapping_cases v b c (encodable_unit32 c Hc)) as [->|(_ & Hsc & _)]; [assumption|now apply scalar_encodable8]. }
  pose proof (utf8_text_flat _ He') as Hflat.
  apply (answers_eq (isUtf8_exact (tables v) _ [] t pred (utf8_text_text8 _ _ Hflat)) (isUtf8_exact (tables v) bs [] t pred T8)).
  rewrite (acceptable8_whole _ _ _ _ Hflat), (acceptable8_whole _ _ _ _ Hb).
  apply (Forall_map_iff _ encodable8); [|exact He]. intros c Hc. cbn beta. apply encodable_unit32 in Hc.
  rewrite (range_isUtf8_mapping v b t c Ht Hc), (mapping_pred v b pred c Hc). reflexivity.
Qed.
Lemma lower_verdict_16 v lang cs us t : language lang -> utf16_text cs us -> t <> Ascii -> exists low,
  toLower_16 (tables v) us lang = Done low /\
  isUtf16_string (tables v) low (code t) nullPredicate = isUtf16_string (tables v) us (code t) nullPredicate.
Proof.
  intros H Hb Ht. pose proof (utf16_text_text16 _ _ Hb) as T16. pose proof (LengthFuncs.utf16_text_reads _ _ Hb) as Hr.
  destruct (lower_16 v lang us cs H T16 Hr) as (low & El & E16 & _). exists (flat_map utf16_units low). split; [exact E16|].
  destruct (language_spec lang H) as (b & E & _). rewrite (toLower_32_map _ _ _ _ E) in El. injection El as <-.
  pose proof (proj1 Hb) as He.
  assert (He' : Forall scalar (map (mapping (tables v) b) cs)).
  { rewrite Forall_map. eapply Forall_impl; [|exact He]. intros c Hc. cbn beta.
    destruct (mapping_cases v b c (scalar_unit32 c Hc)) as [->|(_ & Hsc & _)]; assumption. }
  assert (Hflat : utf16_text (map (mapping (tables v) b) cs) (flat_map utf16_units (map (mapping (tables v) b) cs))) by (split; auto).
  apply (answers_eq (isUtf16_null_exact (tables v) _ [] t (utf16_text_text16 _ _ Hflat)) (isUtf16_null_exact (tables v) us [] t T16)).
  rewrite (acceptable16_whole _ _ _ _ Hflat), (acceptable16_whole _ _ _ _ Hb).
  apply (Forall_map_iff _ scalar); [|exact He]. intros c Hc. apply (documented_mapping v b t c Ht (scalar_unit32 c Hc)).
Qed.

(* ASCII, when the language is not Turkic *)
Lemma lower_more v c : unit32 c -> t_lower (tables v) c = c \/ more_ok c (t_lower (tables v) c) = true.
Proof. intros Hc. destruct (lower_pair v c Hc) as [E|H]; [now left|right; tauto]. Qed.
Lemma lower_ascii v lang s : language lang -> ~ turkic lang -> Forall ascii s ->
  exists low, toLower_32 (tables v) s lang = Done low /\ Forall ascii low.
Proof.
  intros H Ht Hs. destruct (language_spec lang H) as (b & E & Hb). exists (map (mapping (tables v) b) s).
  split; [now apply toLower_32_map|]. destruct b; [tauto|]. cbn [mapping]. rewrite Forall_map. eapply Forall_impl; [|exact Hs].
  unfold ascii. intros c Hc. cbn beta. assert (Hu : unit32 c) by (unfold unit32; lia).
  destruct (lower_more v c Hu) as [->|Hm]; [lia|]. destruct (mapping_cases v false c Hu) as [E'|(_ & _ & _ & _ & Hp & _)]; cbn [mapping] in *; [lia|].
  unfold more_ok in Hm. lia.
Qed.

(* ------------------------------------------------------------------ *)
(* Trimming                                                            *)
(* ------------------------------------------------------------------ *)
Definition wide_blankb (c : Z) : bool :=
  (c =? 0x09) || (c =? 0x0A) || (c =? 0x0D) || (c =? 0x20) || (c =? 0xA0) || ((0x2000 <=? c) && (c <=? 0x200A)) ||
  (c =? 0x202F) || (c =? 0x205F) || (c =? 0x3000).
Lemma wide_blankb_spec c : wide_blankb c = true <-> wide_blank c.
Proof. unfold wide_blankb, wide_blank, ascii_blank. lia. Qed.
Definition no_blanks (v : version) : bool := forallb (fun p => negb (wide_blankb (fst p)) && negb (wide_blankb (snd p))) (pairs v).
Lemma all_no_blanks v : no_blanks v = true.
Proof. destruct v; vm_cast_no_check (eq_refl true). Qed.
Lemma mapping_blank v b c : unit32 c -> wide_blank (mapping (tables v) b c) <-> wide_blank c.
Proof.
  intros Hc. assert (Hl : wide_blank (t_lower (tables v) c) <-> wide_blank c).
  { destruct (lower_follows v c Hc) as [Hin|[_ ->]]; [|reflexivity]. pose proof (all_no_blanks v) as H.
    unfold no_blanks in H. rewrite forallb_forall in H. specialize (H _ Hin). cbn [fst snd] in H.
    rewrite andb_true_iff, !negb_true_iff in H. destruct H as [Ha Hb]. rewrite <- (wide_blankb_spec c), <- (wide_blankb_spec (t_lower _ c)). split; congruence. }
  unfold mapping. destruct b; [|exact Hl]. rewrite turkic_def. destruct (Z.eqb_spec c 0x49) as [->|_]; [|exact Hl].
  unfold wide_blank, ascii_blank. lia.
Qed.

Lemma trimmed_map (P : Z -> Prop) f s r : Forall (fun c => P (f c) <-> P c) s -> trimmed P s r -> trimmed P (map f s) (map f r).
Proof.
  intros H (a & b & -> & Ha & Hb & Hr). apply Forall_app in H. destruct H as [H1 H]. apply Forall_app in H. destruct H as [H2 H3].
  assert (Hgo : forall l, Forall (fun c => P (f c) <-> P c) l -> Forall P l -> Forall P (map f l)).
  { intros l Hl HP. rewrite Forall_map. induction HP; inversion Hl; subst; constructor; tauto. }
  exists (map f a), (map f b). rewrite !map_app. split; [reflexivity|]. split; [auto|]. split; [auto|].
  destruct Hr as [->|[(x & t & -> & Hx) (t' & x' & E & Hx')]]; [now left|right]. split.
  - exists (f x), (map f t). split; [reflexivity|]. inversion H2; tauto.
  - rewrite E, map_app. exists (map f t'), (f x'). split; [reflexivity|]. rewrite E in H2. apply Forall_app in H2. destruct H2 as [_ H2].
    inversion H2; tauto.
Qed.
Lemma lower_trim_32 v lang s : language lang -> Forall unit32 s -> exists low r x,
  toLower_32 (tables v) s lang = Done low /\ trimWhiteSpace_32 s = Done r /\
  trimWhiteSpace_32 low = Done x /\ toLower_32 (tables v) r lang = Done x.
Proof.
  intros H Hs. destruct (language_spec lang H) as (b & E & _). destruct (trim_32_trims s) as (r & Er & Ht).
  exists (map (mapping (tables v) b) s), r, (map (mapping (tables v) b) r).
  split; [now apply toLower_32_map|]. split; [exact Er|]. split; [|now apply toLower_32_map].
  destruct (trim_32_trims (map (mapping (tables v) b) s)) as (x & Ex & Hx). rewrite Ex. f_equal.
  apply (trimmed_unique _ _ _ _ Hx). apply trimmed_map; [|exact Ht]. eapply Forall_impl; [|exact Hs].
  intros c Hc. now apply mapping_blank.
Qed.
Lemma lower_trim_16 v lang cs us : language lang -> utf16_text cs us -> exists low r x,
  toLower_16 (tables v) us lang = Done low /\ trimWhiteSpace_16 us = Done r /\
  trimWhiteSpace_16 low = Done x /\ toLower_16 (tables v) r lang = Done x.
Proof.
  intros H Hb. pose proof (utf16_text_text16 _ _ Hb) as T16. pose proof (LengthFuncs.utf16_text_reads _ _ Hb) as Hr.
  destruct (lower_trim_32 v lang cs H) as (l4 & r4 & x4 & E1 & E2 & E3 & E4); [eapply Forall_impl; [apply scalar_unit32|apply Hb]|].
  destruct (lower_16 v lang us cs H T16 Hr) as (low & El & E16 & _). rewrite E1 in El. injection El as <-.
  destruct (trim_utf16 cs us Hb) as (r & Er & Er'). rewrite E2 in Er. injection Er as <-.
  destruct (lower_keeps v lang cs scalar (fun _ H => H) scalar_unit32 H (proj1 Hb)) as (l & El & Hl & _). rewrite E1 in El. injection El as <-.
  destruct (trim_utf16 l4 _ (conj Hl eq_refl)) as (x & Ex & Ex'). rewrite E3 in Ex. injection Ex as <-.
  assert (Hs : Forall scalar r4).
  { destruct (trim_32_trims cs) as (r' & Er2 & Ht). rewrite E2 in Er2. injection Er2 as <-. exact (trimmed_Forall _ _ _ _ Ht (proj1 Hb)). }
  assert (Ht4 : utf16_text r4 (flat_map utf16_units r4)) by (split; auto).
  destruct (lower_16 v lang _ r4 H (utf16_text_text16 _ _ Ht4) (LengthFuncs.utf16_text_reads _ _ Ht4)) as (low & El & E16' & _).
  rewrite E4 in El. injection El as <-. eexists _, _, _. split; [exact E16|]. split; [exact Er'|]. split; [exact Ex'|exact E16'].
Qed.
Lemma lower_trim_8 v lang cs bs : language lang -> text8 bs -> reads_as cs bs -> Forall upto cs -> exists low r x,
  toLower_8 (tables v) bs lang = Done low /\ trimWhiteSpace_8 bs = Done r /\
  trimWhiteSpace_8 low = Done x /\ toLower_8 (tables v) r lang = Done x.
Proof.
  intros H T8 Hr Hu. pose proof (scalars_of_reads _ _ Hr Hu) as Hsc.
  destruct (lower_trim_32 v lang cs H) as (l4 & r4 & x4 & E1 & E2 & E3 & E4); [eapply Forall_impl; [apply scalar_unit32|apply Hsc]|].
  destruct (lower_8 v lang bs cs H T8 Hr) as (low & El & E8 & _). rewrite E1 in El. injection El as <-.
  destruct (trim_utf8 cs bs T8 Hr Hu) as (r & Er & Er'). rewrite E2 in Er. injection Er as <-.
  destruct (lower_keeps v lang cs scalar (fun _ H => H) scalar_unit32 H Hsc) as (l & El & Hl & _). rewrite E1 in El. injection El as <-.
  assert (Hf : forall l, Forall scalar l -> text8 (flat_map utf8_bytes l) /\ reads_as l (flat_map utf8_bytes l)).
  { intros l Hsl. pose proof (utf8_text_flat l (scalars_encodable8 _ Hsl)) as Htx. split; [now apply utf8_text_text8 in Htx|now apply reads_as_text]. }
  destruct (Hf l4 Hl) as [A1 A2]. destruct (trim_utf8 l4 _ A1 A2 (scalars_upto _ Hl)) as (x & Ex & Ex'). rewrite E3 in Ex. injection Ex as <-.
  assert (Hs : Forall scalar r4).
  { destruct (trim_32_trims cs) as (r' & Er2 & Ht). rewrite E2 in Er2. injection Er2 as <-. exact (trimmed_Forall _ _ _ _ Ht Hsc). }
  destruct (Hf r4 Hs) as [A3 A4]. destruct (lower_8 v lang _ r4 H A3 A4) as (low & El & E8' & _).
  rewrite E4 in El. injection El as <-. eexists _, _, _. split; [exact E8|]. split; [exact Er'|]. split; [exact Ex'|exact E8'].
Qed.

(* ------------------------------------------------------------------ *)
(* Splitting and joining                                               *)
(* ------------------------------------------------------------------ *)
Lemma pieces_map f d s : Forall (fun c => f c = d <-> c = d) s -> pieces d (map f s) = map (map f) (pieces d s).
Proof.
  induction 1 as [|c s Hc _ IH]; [reflexivity|]. cbn [map pieces].
  destruct (Z.eqb_spec (f c) d), (Z.eqb_spec c d); try tauto; rewrite IH; [reflexivity|].
  pose proof (pieces_ne d s). destruct (pieces d s); [congruence|reflexivity].
Qed.
Lemma occurrences_map f d s : Forall (fun c => f c = d <-> c = d) s -> occurrences d (map f s) = occurrences d s.
Proof.
  induction 1 as [|c s Hc _ IH]; [reflexivity|]. cbn [map]. rewrite !occurrences_cons, IH.
  destruct (Z.eqb_spec (f c) d), (Z.eqb_spec c d); tauto.
Qed.
Lemma glue_map f d v : f d = d -> glue d (map (map f) v) = map f (glue d v).
Proof.
  intros Hd. induction v as [|p v IH]; [reflexivity|]. destruct v as [|q v]; [reflexivity|].
  rewrite (glue_cons d p) by discriminate. cbn [map] in *. rewrite glue_cons by discriminate.
  rewrite map_app. cbn [map]. now rewrite IH, Hd.
Qed.
(* only d itself is mapped to d *)
Definition caseless v lang d := forall c, unit32 c -> toLower_32 (tables v) [c] lang = Done [d] <-> c = d.
Lemma lower_split v lang s d : language lang -> Forall unit32 s -> caseless v lang d -> occurrences d s < 0x80000000 ->
  exists low ps lows, toLower_32 (tables v) s lang = Done low /\ split s d = Done ps /\ split low d = Done lows /\
    Forall2 (fun p q => toLower_32 (tables v) p lang = Done q) ps lows.
Proof.
  intros H Hs Hd Ho. destruct (language_spec lang H) as (b & E & _). set (f := mapping (tables v) b).
  assert (HF : Forall (fun c => f c = d <-> c = d) s).
  { eapply Forall_impl; [|exact Hs]. intros c Hc. specialize (Hd c Hc). rewrite (toLower_32_map _ _ _ _ E) in Hd. cbn [map] in Hd.
    rewrite <- Hd. subst f. split; [now intros ->|intros A; injection A; auto]. }
  exists (map f s). destruct s as [|c0 s0] eqn:Es.
  - exists [], []. split; [now apply toLower_32_map|]. split; [reflexivity|]. split; [reflexivity|constructor].
  - rewrite <- Es in *. exists (pieces d s), (map (map f) (pieces d s)). split; [now apply toLower_32_map|].
    rewrite !split_spec by (rewrite Es; discriminate). rewrite (occurrences_map f d s HF), (pieces_map f d s HF).
    replace (occurrences d s <? 0x80000000) with true by lia. split; [reflexivity|]. split; [reflexivity|].
    induction (pieces d s) as [|p ps IH]; cbn [map]; constructor; [now apply toLower_32_map|exact IH].
Qed.
Lemma lower_join v lang ps d : language lang -> caseless v lang d -> unit32 d ->
  exists s lows low, join ps d = Done s /\ toLower_32 (tables v) s lang = Done low /\
    Forall2 (fun p q => toLower_32 (tables v) p lang = Done q) ps lows /\ join lows d = Done low.
Proof.
  intros H Hd Hu. destruct (language_spec lang H) as (b & E & _). set (f := mapping (tables v) b).
  assert (Hf : f d = d).
  { pose proof (proj2 (Hd d Hu) eq_refl) as A. rewrite (toLower_32_map _ _ _ _ E) in A. cbn [map] in A. now injection A. }
  assert (HF : Forall2 (fun p q => toLower_32 (tables v) p lang = Done q) ps (map (map f) ps)).
  { induction ps as [|p ps IH]; cbn [map]; constructor; [now apply toLower_32_map|exact IH]. }
  destruct (Z.eq_dec d 0) as [->|Hd0].
  - exists (concat ps), (map (map f) ps), (map f (concat ps)). rewrite !join_zero. split; [reflexivity|].
    split; [now apply toLower_32_map|]. split; [exact HF|]. now rewrite concat_map.
  - exists (glue d ps), (map (map f) ps), (map f (glue d ps)). rewrite !join_spec by assumption. split; [reflexivity|].
    split; [now apply toLower_32_map|]. split; [exact HF|]. now rewrite glue_map.
Qed.
(* when a delimiter is caseless *)
Definition apart (d : Z) (v : version) : bool :=
  negb (d =? 0x131) && negb (d =? 0x49) && forallb (fun p => negb (fst p =? d) && negb (snd p =? d)) (pairs v).
Lemma apart_caseless v lang d : language lang -> apart d v = true -> caseless v lang d.
Proof.
  intros H Ha c Hc. destruct (language_spec lang H) as (b & E & _). rewrite (toLower_32_map _ _ _ _ E). cbn [map].
  unfold apart in Ha. rewrite !andb_true_iff, forallb_forall in Ha. destruct Ha as [[A1 A2] A3].
  assert (Hl : t_lower (tables v) c = d <-> c = d).
  { destruct (lower_follows v c Hc) as [Hin|[_ ->]]; [|reflexivity]. specialize (A3 _ Hin). cbn [fst snd] in A3. lia. }
  assert (Hm : mapping (tables v) b c = d <-> c = d).
  { unfold mapping. destruct b; [|exact Hl]. rewrite turkic_def. destruct (Z.eqb_spec c 0x49); [lia|exact Hl]. }
  rewrite <- Hm. split; [intros A; now injection A|now intros ->].
Qed.

(* ------------------------------------------------------------------ *)
(* Sizes                                                               *)
(* ------------------------------------------------------------------ *)
Lemma units_len c : len (utf16_units c) = if c <? 0x10000 then 1 else 2.
Proof. unfold utf16_units. now destruct (c <? 0x10000). Qed.
Lemma bytes_len c : scalar c -> len (utf8_bytes c) = size8 c.
Proof.
  unfold scalar, size8, utf8_bytes. intros Hc. destruct (c <? 0x80); [reflexivity|]. destruct (c <? 0x800); [reflexivity|].
  destruct (c <? 0x10000); [reflexivity|]. replace (c <? 0x200000) with true by lia. reflexivity.
Qed.
Lemma lower_size_16 v lang cs us : language lang -> utf16_text cs us -> exists low,
  toLower_16 (tables v) us lang = Done low /\ len low = len us.
Proof.
  intros H Hb. pose proof (utf16_text_text16 _ _ Hb) as T16. pose proof (LengthFuncs.utf16_text_reads _ _ Hb) as Hr.
  destruct (lower_16 v lang us cs H T16 Hr) as (low & El & E16 & _). exists (flat_map utf16_units low). split; [exact E16|].
  destruct (language_spec lang H) as (b & E & _). rewrite (toLower_32_map _ _ _ _ E) in El. injection El as <-.
  destruct Hb as [Hs ->]. clear - Hs. induction Hs as [|c cs Hc _ IH]; [reflexivity|]. cbn [map flat_map].
  rewrite !len_app_z, IH, !units_len. f_equal.
  destruct (mapping_cases v b c (scalar_unit32 c Hc)) as [->|(_ & _ & Hm & _)]; [reflexivity|].
  destruct (Z.ltb_spec (mapping (tables v) b c) 0x10000), (Z.ltb_spec c 0x10000); lia.
Qed.
Lemma utf8_bytes_len4 c : 0x10000 <= c <= 0x10FFFF -> len (utf8_bytes c) = 4.
Proof.
  intros Hc. unfold utf8_bytes. replace (c <? 0x80) with false by lia. replace (c <? 0x800) with false by lia.
  replace (c <? 0x10000) with false by lia. now replace (c <? 0x200000) with true by lia.
Qed.
Lemma seq_at_least c s : utf8_seq c s -> len (utf8_bytes c) <= len s.
Proof.
  destruct 1 as [c _|c Hc]; [lia|]. rewrite (utf8_bytes_len4 c Hc). unfold utf16_units. replace (c <? 0x10000) with false by lia.
  cbn [flat_map]. rewrite !len_app_z.
  assert (H3 : forall x, 0xD800 <= x <= 0xDFFF -> len (utf8_bytes x) = 3).
  { intros x Hx. unfold utf8_bytes. replace (x <? 0x80) with false by lia. replace (x <? 0x800) with false by lia.
    now replace (x <? 0x10000) with true by lia. }
  rewrite !H3 by lia. cbn. lia.
Qed.
Lemma lower_size_8 v lang cs bs : language lang -> utf8_text cs bs -> exists low,
  toLower_8 (tables v) bs lang = Done low /\ len low <= 2 * len bs /\ (~ turkic lang -> 2 * len low <= 3 * len bs).
Proof.
  intros H Hb. pose proof (utf8_text_text8 _ _ Hb) as T8. pose proof (reads_as_text _ _ Hb) as Hr.
  destruct (lower_8 v lang bs cs H T8 Hr) as (low & El & E8 & _). exists (flat_map utf8_bytes low). split; [exact E8|].
  destruct (language_spec lang H) as (b & E & Ht). rewrite (toLower_32_map _ _ _ _ E) in El. injection El as <-.
  assert (Hgo : len (flat_map utf8_bytes (map (mapping (tables v) b) cs)) <= 2 * len bs /\
    (b = false -> 2 * len (flat_map utf8_bytes (map (mapping (tables v) b) cs)) <= 3 * len bs)).
  { clear - Hb. induction Hb as [|c s cs bs Hc _ IH]; [cbn; lia|]. cbn [map flat_map]. rewrite !len_app_z.
    pose proof (seq_at_least _ _ Hc) as Hl.
    assert (Hu : unit32 c) by (destruct Hc as [c Hc|c Hc]; [now apply encodable_unit32|unfold unit32; lia]).
    assert (Hg : 0 <= len (utf8_bytes c)) by (unfold len; lia).
    destruct IH as [IH1 IH2]. destruct (mapping_cases v b c Hu) as [->|(H1 & H2 & _ & _ & _ & H3)].
    - split; [lia|]. intros Hf. specialize (IH2 Hf). lia.
    - rewrite (bytes_len _ H1) in *. rewrite (bytes_len _ H2). split; [lia|]. intros ->. specialize (IH2 eq_refl). cbn [mapping] in *.
      destruct (lower_more v c Hu) as [Em|Hm]; [rewrite Em in *; lia|]. unfold more_ok in Hm. lia. }
  split; [apply Hgo|]. intros Hn. apply Hgo. destruct b; [tauto|reflexivity].
Qed.
