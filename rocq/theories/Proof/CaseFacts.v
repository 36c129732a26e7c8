(* toLower on strings. *)
From Coq Require Import ZArith List Bool Lia ZifyBool.
From Verif Require Import Machine.
From Verif.Model Require Import Tables Str Lower.
From Verif.Spec Require Import Utf Target Result Ucd Lowercase Case.
From Verif.Proof Require Import Bits ToFuncs Round TextFacts Classes TablesFacts.
Import ListNotations.
Local Open Scope Z_scope.

(* ------------------------------------------------------------------ *)
(* The language argument                                               *)
(* ------------------------------------------------------------------ *)
Ltac refute_in := cbn [In]; let H := fresh in intros H; repeat (destruct H as [H|H]; [discriminate H|]); destruct H.
Ltac find_in := repeat match goal with
  | H : _ \/ _ |- _ => destruct H
  | H : _ /\ _ |- _ => destruct H
  end; subst; repeat (first [left; reflexivity | right]).
Lemma isTurkicLang_spec l junk : ~ In 0 l ->
  exists b, isTurkicLang (At (l ++ 0 :: junk)) = Done b /\ (b = true <-> In l turkic_codes).
Proof.
  intros Hl. unfold isTurkicLang, turkic_codes.
  destruct l as [|a [|b [|c [|d l]]]]; cbn [app index nth_error bind].
  - exists false. split; [reflexivity|]. split; [discriminate|]. refute_in.
  - cbn [In] in Hl. destruct (Z.eqb_spec a 0); [tauto|]. exists false. split; [reflexivity|]. split; [discriminate|]. refute_in.
  - cbn [In] in Hl. destruct (Z.eqb_spec a 0); [tauto|]. destruct (Z.eqb_spec b 0); [tauto|]. cbn [Z.eqb].
    eexists. split; [reflexivity|]. cbn [In]. split.
    + intros K. rewrite ?orb_true_iff, ?andb_true_iff, ?orb_true_iff, ?Z.eqb_eq in K. clear Hl.
      find_in.
    + intros H. repeat (destruct H as [H|H]; [first [discriminate H|injection H as <- <-; reflexivity]|]). destruct H.
  - cbn [In] in Hl. destruct (Z.eqb_spec a 0); [tauto|]. destruct (Z.eqb_spec b 0); [tauto|].
    destruct (Z.eqb_spec c 0); [tauto|]. cbn [Z.eqb].
    eexists. split; [reflexivity|]. cbn [In]. split.
    + intros K. rewrite ?orb_true_iff, ?andb_true_iff, ?orb_true_iff, ?Z.eqb_eq in K. clear Hl.
      find_in.
    + intros H. repeat (destruct H as [H|H]; [first [discriminate H|injection H as <- <- <-; reflexivity]|]). destruct H.
  - cbn [In] in Hl. destruct (Z.eqb_spec a 0); [tauto|]. destruct (Z.eqb_spec b 0); [tauto|].
    destruct (Z.eqb_spec c 0); [tauto|]. destruct (Z.eqb_spec d 0); [tauto|].
    exists false. split; [reflexivity|]. split; [discriminate|]. refute_in.
Qed.
(* a string is determined by the array that holds it *)
Lemma nul_unique l l' junk junk' : ~ In 0 l -> ~ In 0 l' -> l ++ 0 :: junk = l' ++ 0 :: junk' -> l = l'.
Proof.
  revert l'. induction l as [|a l IH]; intros [|a' l'] H1 H2 E; cbn [app] in E; try reflexivity.
  - injection E as <- _. cbn [In] in H2. tauto.
  - injection E as -> _. cbn [In] in H1. tauto.
  - injection E as <- E. cbn [In] in H1, H2. f_equal. apply IH; tauto.
Qed.
Lemma codes_no_zero l : In l turkic_codes -> ~ In 0 l.
Proof. unfold turkic_codes. cbn [In]. intros H. repeat (destruct H as [<-|H]; [refute_in|]). destruct H. Qed.
Lemma language_spec lang : language lang -> exists b, isTurkicLang lang = Done b /\ (b = true <-> turkic lang).
Proof.
  intros [->|(l & junk & -> & Hl)].
  - exists false. split; [reflexivity|]. split; [discriminate|]. intros (l & junk & E & _). discriminate E.
  - destruct (isTurkicLang_spec l junk Hl) as (b & E & Hb). exists b. split; [assumption|]. rewrite Hb.
    split; [intros H; now exists l, junk|]. intros (l' & junk' & E' & H'). injection E' as E'.
    now rewrite (nul_unique l l' junk junk' Hl (codes_no_zero _ H') E').
Qed.
Lemma turkic_language lang : turkic lang -> language lang.
Proof. intros (l & junk & -> & H). right. exists l, junk. split; [reflexivity|now apply codes_no_zero]. Qed.

(* the mapping used for a language *)
Definition mapping (T : UnicodeTables) (b : bool) : Z -> Z := if b then t_turkic T else t_lower T.
Lemma toLower_32_map T lang b s : isTurkicLang lang = Done b -> toLower_32 T s lang = Done (map (mapping T b) s).
Proof. intros E. unfold toLower_32, mapping. rewrite E. cbn [bind]. now destruct b. Qed.

Lemma pointwise T lang : language lang -> exists f, forall s, toLower_32 T s lang = Done (map f s).
Proof. intros H. destruct (language_spec lang H) as (b & E & _). exists (mapping T b). intros s. now apply toLower_32_map. Qed.
Lemma same_language T lang lang' s : language lang -> language lang' -> (turkic lang <-> turkic lang') ->
  toLower_32 T s lang = toLower_32 T s lang'.
Proof.
  intros H H' Ht. destruct (language_spec lang H) as (b & E & Hb). destruct (language_spec lang' H') as (b' & E' & Hb').
  rewrite (toLower_32_map T lang b s E), (toLower_32_map T lang' b' s E'). do 2 f_equal.
  destruct b, b'; try reflexivity; intuition discriminate.
Qed.
Lemma lower_concat T lang a b : language lang -> exists ra rb,
  toLower_32 T a lang = Done ra /\ toLower_32 T b lang = Done rb /\ toLower_32 T (a ++ b) lang = Done (ra ++ rb) /\
  length ra = length a.
Proof.
  intros H. destruct (pointwise T lang H) as [f Hf]. exists (map f a), (map f b). rewrite !Hf, map_app, map_length. auto.
Qed.

(* ------------------------------------------------------------------ *)
(* Values                                                              *)
(* ------------------------------------------------------------------ *)
Lemma mapping_twice v b c : unit32 c -> mapping (tables v) b (mapping (tables v) b c) = mapping (tables v) b c.
Proof. destruct b; [apply turkic_twice|apply lower_twice]. Qed.
Lemma mapping_value v b c : unit32 c -> mapping (tables v) b c = c \/ scalar (mapping (tables v) b c).
Proof. destruct b; [apply turkic_value|apply lower_value]. Qed.
Lemma mapping_unit v b c : unit32 c -> unit32 (mapping (tables v) b c).
Proof. intros Hc. destruct (mapping_value v b c Hc) as [->|H]; [assumption|]. unfold unit32, scalar in *. lia. Qed.

Lemma lower_idempotent v lang s : language lang -> Forall unit32 s -> exists r,
  toLower_32 (tables v) s lang = Done r /\ toLower_32 (tables v) r lang = Done r.
Proof.
  intros H Hs. destruct (language_spec lang H) as (b & E & _). exists (map (mapping (tables v) b) s).
  rewrite !(toLower_32_map _ _ _ _ E). split; [reflexivity|]. f_equal. rewrite map_map. apply map_ext_in.
  intros c Hc. apply mapping_twice. rewrite Forall_forall in Hs. now apply Hs.
Qed.
Lemma lower_keeps v lang s (P : Z -> Prop) : (forall c, scalar c -> P c) -> (forall c, P c -> unit32 c) ->
  language lang -> Forall P s -> exists r, toLower_32 (tables v) s lang = Done r /\ Forall P r /\ length r = length s.
Proof.
  intros H1 H2 H Hs. destruct (language_spec lang H) as (b & E & _). exists (map (mapping (tables v) b) s).
  rewrite !(toLower_32_map _ _ _ _ E). split; [reflexivity|]. split; [|apply map_length].
  rewrite Forall_map. eapply Forall_impl; [|exact Hs]. intros c Hc. cbn beta.
  destruct (mapping_value v b c (H2 c Hc)) as [->|Hv]; auto.
Qed.
Lemma scalar_unit32 c : scalar c -> unit32 c.
Proof. unfold scalar, unit32. lia. Qed.
Lemma encodable_unit32 c : encodable8 c -> unit32 c.
Proof. unfold encodable8, unit32. lia. Qed.

Lemma lower_high v lang s : language lang -> Forall (fun c => 0x1FFFF < c < 0x100000000) s ->
  toLower_32 (tables v) s lang = Done s.
Proof.
  intros H Hs. destruct (language_spec lang H) as (b & E & _). rewrite (toLower_32_map _ _ _ _ E). f_equal.
  rewrite <- (map_id s) at 2. apply map_ext_in. intros c Hc. rewrite Forall_forall in Hs. specialize (Hs c Hc).
  destruct b; cbn [mapping]; [rewrite turkic_def; destruct (Z.eqb_spec c 0x49); [lia|]|]; apply lower_above; lia.
Qed.
Lemma zero_fixed v b : mapping (tables v) b 0 = 0.
Proof. now destruct b, v. Qed.

(* the Turkic difference *)
Lemma capital_i v lang : language lang ->
  (turkic lang -> toLower_32 (tables v) [0x49] lang = Done [0x131]) /\
  (~ turkic lang -> toLower_32 (tables v) [0x49] lang = Done [0x69]).
Proof.
  intros H. destruct (language_spec lang H) as (b & E & Hb). rewrite !(toLower_32_map _ _ _ _ E).
  destruct b; cbn [map mapping].
  - split; [now destruct v|tauto].
  - split; [intros; intuition discriminate|]. intros _. now destruct v.
Qed.
Lemma only_capital_i v lang s : language lang -> ~ In 0x49 s -> toLower_32 (tables v) s lang = toLower_32 (tables v) s Null.
Proof.
  intros H Hs. destruct (language_spec lang H) as (b & E & Hb).
  rewrite !(toLower_32_map _ _ _ _ E), (toLower_32_map _ Null false s eq_refl). f_equal. apply map_ext_in. intros c Hc.
  destruct b; [|reflexivity]. cbn [mapping]. rewrite turkic_def. destruct (Z.eqb_spec c 0x49) as [->|]; [tauto|reflexivity].
Qed.

(* the data *)
Lemma lower_data v s : Forall unit32 s -> exists r, toLower_32 (tables v) s Null = Done r /\
  Forall2 (fun c d => (lowers_to v c d <-> ~ departs v c) /\
    (in_ranges (lower_missing v) c -> d = c) /\ (forall d', In (c, d') (lower_extra v) -> d = d')) s r.
Proof.
  intros Hs. exists (map (t_lower (tables v)) s). rewrite (toLower_32_map _ Null false s eq_refl). split; [reflexivity|].
  induction Hs as [|c s Hc _ IH]; cbn [map]; constructor; [|exact IH].
  split; [now apply departures|].
  split.
  - intros Hm. destruct (lower_follows v c Hc) as [Hf|[_ E]]; [exfalso|assumption].
    rewrite LowerTools.amended_spec in Hf. destruct Hf as [[_ Hf]|Hf]; [tauto|].
    assert (Hd : forall p, In p (lower_extra v) -> negb (LowerTools.inside (lower_missing v) (fst p)) = true).
    { apply forallb_forall. destruct v; vm_compute; reflexivity. }
    specialize (Hd _ Hf). cbn [fst] in Hd. rewrite negb_true_iff, <- not_true_iff_false, LowerTools.inside_spec in Hd. tauto.
  - intros d' Hd'. destruct (lower_follows v c Hc) as [Hf|[Hf _]].
    + rewrite LowerTools.amended_spec in Hf.
      assert (Hu : forall p, In p (lower_extra v) ->
        forallb (fun q => negb (fst q =? fst p) || (snd q =? snd p)) (ucd_lower v ++ lower_extra v) = true).
      { apply forallb_forall. destruct v; vm_compute; reflexivity. }
      specialize (Hu _ Hd'). rewrite forallb_forall in Hu.
      specialize (Hu (c, t_lower (tables v) c)). cbn [fst snd] in Hu.
      assert (Hin : In (c, t_lower (tables v) c) (ucd_lower v ++ lower_extra v)).
      { apply in_or_app. tauto. }
      specialize (Hu Hin). lia.
    + exfalso. apply (Hf d'). rewrite LowerTools.amended_spec. now right.
Qed.
Lemma departs_multiplication_sign v : exists r, toLower_32 (tables v) [0xD7] Null = Done [r] /\ ~ lowers_to v 0xD7 r.
Proof.
  destruct (lower_data v [0xD7]) as (r & E & H); [repeat constructor; unfold unit32; lia|].
  inversion H as [|c d s r' (H1 & _ & H3) H4 E1 E2]; subst. inversion H4; subst. exists d. split; [assumption|].
  rewrite H1. intros Hn. apply Hn. right. exists 0xF7. destruct v; cbn [lower_extra extra_everywhere app In]; auto.
Qed.

(* ------------------------------------------------------------------ *)
(* The other encodings                                                 *)
(* ------------------------------------------------------------------ *)
Lemma lower_8 v lang bs cs : language lang -> text8 bs -> reads_as cs bs -> exists low,
  toLower_32 (tables v) cs lang = Done low /\ toLower_8 (tables v) bs lang = Done (flat_map utf8_bytes low) /\
  length low = length cs.
Proof.
  intros H Hb Hr. pose proof (reads_as_range _ _ Hr) as He.
  destruct (lower_keeps v lang cs encodable8 scalar_encodable8 encodable_unit32 H He) as (low & E & Hl & Hn).
  exists low. split; [assumption|]. split; [|assumption]. unfold toLower_8, toUcs4_8_string, c_str.
  rewrite (proj1 (toUcs4_8_exact bs [] Hb) cs Hr). cbn [bind]. destruct cs as [|c cs].
  - destruct low; [reflexivity|discriminate Hn].
  - rewrite E. cbn [bind]. unfold toUtf8_32_string, c_str.
    now apply (proj1 (toUtf8_32_exact low [] (encodable8_text32 _ Hl))).
Qed.
Lemma lower_8_bad T lang bs : text8 bs -> (forall cs, ~ reads_as cs bs) -> toLower_8 T bs lang = Done [].
Proof.
  intros Hb Hr. unfold toLower_8, toUcs4_8_string, c_str. rewrite (proj2 (toUcs4_8_exact bs [] Hb) Hr). reflexivity.
Qed.
Lemma scalars_text32 cs : Forall scalar cs -> text32 cs.
Proof. intros H. now apply encodable8_text32, scalars_encodable8. Qed.
Lemma lower_16 v lang us cs : language lang -> text16 us -> reads_as16 cs us -> exists low,
  toLower_32 (tables v) cs lang = Done low /\ toLower_16 (tables v) us lang = Done (flat_map utf16_units low) /\
  length low = length cs.
Proof.
  intros H Hb Hr. assert (He : Forall scalar cs) by (destruct Hr as (body & tail & _ & [Hs _] & _); assumption).
  destruct (lower_keeps v lang cs scalar (fun _ H => H) scalar_unit32 H He) as (low & E & Hl & Hn).
  exists low. split; [assumption|]. split; [|assumption]. unfold toLower_16, toUcs4_16_string, c_str.
  rewrite (proj1 (toUcs4_16_exact us [] Hb) cs Hr). cbn [bind]. destruct cs as [|c cs].
  - destruct low; [reflexivity|discriminate Hn].
  - rewrite E. cbn [bind]. unfold toUtf16_32_string, c_str.
    now apply (proj1 (toUtf16_32_exact low [] (scalars_text32 _ Hl))).
Qed.
Lemma lower_16_bad T lang us : text16 us -> (forall cs, ~ reads_as16 cs us) -> toLower_16 T us lang = Done [].
Proof.
  intros Hb Hr. unfold toLower_16, toUcs4_16_string, c_str. rewrite (proj2 (toUcs4_16_exact us [] Hb) Hr). reflexivity.
Qed.
