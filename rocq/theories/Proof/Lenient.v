(* toUtf8(const char16_t* ): exact, with lone low surrogates let through. *)
From Coq Require Import ZArith List Bool Lia ZifyBool.
From Verif Require Import Machine.
From Verif.Model Require Import Internal Decode Tables Predicate Str.
From Verif.Spec Require Import Utf Target Result.
From Verif.Proof Require Import Bits Encode DecodeFacts TextFacts ToFuncs IsFuncs.
Import ListNotations.
Local Open Scope Z_scope.

Definition lax (c : Z) : Prop := scalar c \/ low_surrogate c.

Lemma lax_cases c : lax c ->
  (utf16_units c = [c] /\ 0 < c < 0x10000 /\ ~ high_surrogate c) \/
  exists h l, utf16_units c = [h; l] /\ high_surrogate h /\ low_surrogate l /\ c = pair_value h l.
Proof.
  intros [H|H].
  - destruct (units_cases c H) as [[[Hb Hn] E]|H']; [left|right; exact H'].
    repeat split; try lia; [assumption|]. unfold high_surrogate, surrogate in *. lia.
  - left. unfold low_surrogate in H. rewrite utf16_units_bmp by lia. unfold high_surrogate. repeat split; lia.
Qed.

Lemma lenient_nil : lenient_as16 [] [].
Proof. exists []. repeat split; [constructor|now left]. Qed.
Lemma lenient_last h : high_surrogate h -> lenient_as16 [] [h].
Proof. intros H. exists [h]. repeat split; [constructor|right; eauto]. Qed.
Lemma lenient_cons c cs us : lax c -> lenient_as16 cs us -> lenient_as16 (c :: cs) (utf16_units c ++ us).
Proof.
  intros Hc (t & -> & Hf & Ht). exists t. cbn [flat_map]. rewrite app_assoc. repeat split; auto.
Qed.
Lemma lenient_inv cs us : lenient_as16 cs us ->
  (cs = [] /\ (us = [] \/ exists h, us = [h] /\ high_surrogate h)) \/
  exists c cs' rest, cs = c :: cs' /\ us = utf16_units c ++ rest /\ lax c /\ lenient_as16 cs' rest.
Proof.
  intros (t & -> & Hf & Ht). destruct Hf as [|c cs Hc Hcs]; [left; auto|right].
  exists c, cs, (flat_map utf16_units cs ++ t). cbn [flat_map]. rewrite app_assoc. repeat split; auto.
  exists t. auto.
Qed.
Lemma reads_lenient cs us : reads_as16 cs us -> lenient_as16 cs us.
Proof.
  intros (b & t & -> & [Hb ->] & Ht). exists t. repeat split; auto. eapply Forall_impl; [|exact Hb]. auto.
Qed.

(* how a lenient UTF-16 string starts *)
Inductive lscan16 (us : list Z) : Prop :=
| l16_plain c rest : us = c :: rest -> 0 < c < 0x10000 -> ~ high_surrogate c -> lscan16 us
| l16_pair h l rest : us = h :: l :: rest -> high_surrogate h -> low_surrogate l -> lscan16 us
| l16_last h : us = [h] -> high_surrogate h -> lscan16 us
| l16_high h x rest : us = h :: x :: rest -> high_surrogate h -> ~ low_surrogate x -> lscan16 us.

Lemma lscan16_cases us : text16 us -> us <> [] -> lscan16 us.
Proof.
  intros H Hne. destruct (scan16_cases us H Hne) as [c r -> [Hc Hn]|h l r -> Hh Hl|h -> Hh|h x r -> Hh Hx|l r -> Hl].
  - eapply l16_plain; [reflexivity|lia|]. unfold high_surrogate, surrogate in *. lia.
  - eapply l16_pair; eauto.
  - eapply l16_last; eauto.
  - eapply l16_high; eauto.
  - unfold low_surrogate in Hl. eapply l16_plain; [reflexivity|lia|]. unfold high_surrogate. lia.
Qed.

Lemma lenient_plain_inv c cs rest : ~ high_surrogate c -> lenient_as16 cs (c :: rest) ->
  exists cs', cs = c :: cs' /\ lenient_as16 cs' rest.
Proof.
  intros Hn H. apply lenient_inv in H.
  destruct H as [[_ [E|(h & E & Hh)]]|(c' & cs' & r & -> & E & Hs & Hr)]; [discriminate| |].
  - injection E as -> _. contradiction.
  - destruct (lax_cases c' Hs) as [(E' & _ & _)|(h & l & E' & Hh & _)]; rewrite E' in E; injection E as -> E.
    + subst. eauto.
    + contradiction.
Qed.
Lemma lenient_pair_inv h l cs rest : high_surrogate h -> lenient_as16 cs (h :: l :: rest) ->
  low_surrogate l /\ exists cs', cs = pair_value h l :: cs' /\ lenient_as16 cs' rest.
Proof.
  intros Hh H. apply lenient_inv in H.
  destruct H as [[_ [E|(h' & E & Hh')]]|(c' & cs' & r & -> & E & Hs & Hr)]; [discriminate|discriminate|].
  destruct (lax_cases c' Hs) as [(E' & _ & Hn)|(h' & l' & E' & Hh' & Hl' & ->)]; rewrite E' in E.
  - injection E as -> _. contradiction.
  - injection E as -> -> ->. eauto.
Qed.
Lemma lenient_last_inv h cs : high_surrogate h -> lenient_as16 cs [h] -> cs = [].
Proof.
  intros Hh H. apply lenient_inv in H.
  destruct H as [[-> _]|(c' & cs' & r & -> & E & Hs & Hr)]; [reflexivity|].
  destruct (lax_cases c' Hs) as [(E' & _ & Hn)|(h' & l' & E' & Hh' & Hl' & ->)]; rewrite E' in E.
  - injection E as -> _. contradiction.
  - discriminate.
Qed.
Lemma lenient_nil_inv cs : lenient_as16 cs [] -> cs = [].
Proof.
  intros H. apply lenient_inv in H. destruct H as [[-> _]|(c' & cs' & r & -> & E & _)]; [reflexivity|].
  unfold utf16_units in E. destruct (c' <? 0x10000); discriminate.
Qed.

Lemma toUtf8_16_loop_exact junk n : forall us result, (length us <= n)%nat -> text16 us ->
  exact_conversion (fun cs => lenient_as16 cs us) (fun cs => result ++ flat_map utf8_bytes cs)
    (toUtf8_16_loop (us ++ 0 :: junk) result).
Proof.
  assert (Hnil : forall result, exact_conversion (fun cs => lenient_as16 cs [])
    (fun cs => result ++ flat_map utf8_bytes cs) (Done result)).
  { intros result. split.
    - intros cs H. apply lenient_nil_inv in H. subst. cbn. now rewrite app_nil_r.
    - intros H. exfalso. apply (H []). apply lenient_nil. }
  induction n as [|n IH]; intros us result Hn Ht.
  { destruct us; [|cbn in Hn; lia]. apply Hnil. }
  destruct us as [|u us]; [apply Hnil|].
  pose proof (Forall_cons_inv _ _ _ Ht) as [Hu Htl].
  cbn [toUtf8_16_loop app]. replace (u =? 0) with false by lia.
  destruct (lscan16_cases (u :: us) Ht ltac:(discriminate)) as [c r E Hc Hnh|h l r E Hh Hl|h E Hh|h x r E Hh Hx];
    injection E as -> ->; rewrite isFirst_b.
  - assert (Hns := Hnh). unfold high_surrogate in Hns.
    replace ((0xD800 <=? c) && (c <=? 0xDBFF)) with false by lia. rewrite encodeUtf8_spec by lia.
    destruct (IH r (result ++ utf8_bytes c) ltac:(cbn in Hn; lia) Htl) as [H1 H2]. split.
    + intros cs H. destruct (lenient_plain_inv _ _ _ Hnh H) as (cs' & -> & H').
      rewrite (H1 _ H'), <- app_assoc. reflexivity.
    + intros H. apply H2. intros cs Hcs. apply (H (c :: cs)).
      change (c :: r) with ([c] ++ r). rewrite <- (utf16_units_bmp c) by lia.
      apply lenient_cons; [|assumption]. unfold lax, scalar, low_surrogate, surrogate. lia.
  - assert (0xD800 <= h <= 0xDBFF) by exact Hh. assert (0xDC00 <= l <= 0xDFFF) by exact Hl.
    replace ((0xD800 <=? h) && (h <=? 0xDBFF)) with true by lia. cbn [app].
    replace (l =? 0) with false by lia. rewrite isSecond_b.
    replace ((0xDC00 <=? l) && (l <=? 0xDFFF)) with true by lia. cbn [negb].
    destruct (pair_units h l Hh Hl) as (Eu & Hsc & Hrg).
    rewrite rawDecodeUtf16_spec by assumption. rewrite encodeUtf8_spec by lia.
    pose proof (Forall_cons_inv _ _ _ Htl) as [_ Htr].
    destruct (IH r (result ++ utf8_bytes (pair_value h l)) ltac:(cbn in Hn; lia) Htr) as [H1 H2]. split.
    + intros cs Hcs. destruct (lenient_pair_inv _ _ _ _ Hh Hcs) as (_ & cs' & -> & H').
      rewrite (H1 _ H'), <- app_assoc. reflexivity.
    + intros Hno. apply H2. intros cs Hcs. apply (Hno (pair_value h l :: cs)).
      change (h :: l :: r) with ([h; l] ++ r). rewrite <- Eu. apply lenient_cons; [now left|assumption].
  - assert (0xD800 <= h <= 0xDBFF) by exact Hh.
    replace ((0xD800 <=? h) && (h <=? 0xDBFF)) with true by lia. cbn. split.
    + intros cs Hcs. rewrite (lenient_last_inv _ _ Hh Hcs). cbn. now rewrite app_nil_r.
    + intros Hno. exfalso. apply (Hno []). now apply lenient_last.
  - assert (0xD800 <= h <= 0xDBFF) by exact Hh.
    replace ((0xD800 <=? h) && (h <=? 0xDBFF)) with true by lia. cbn [app].
    pose proof (Forall_cons_inv _ _ _ Htl) as [Hx0 _].
    replace (x =? 0) with false by lia. rewrite isSecond_b.
    assert (Hx' := Hx). unfold low_surrogate in Hx'.
    replace ((0xDC00 <=? x) && (x <=? 0xDFFF)) with false by lia. cbn [negb]. split.
    + intros cs Hcs. exfalso. destruct (lenient_pair_inv _ _ _ _ Hh Hcs) as (Hl & _). contradiction.
    + reflexivity.
Qed.

Lemma toUtf8_16_exact us junk : text16 us ->
  exact_conversion (fun cs => lenient_as16 cs us) (flat_map utf8_bytes) (toUtf8_16 (At (us ++ 0 :: junk))).
Proof.
  intros H. unfold toUtf8_16. rewrite convert_nul'; [|now apply text16_no_zero|reflexivity].
  apply (toUtf8_16_loop_exact junk (length us) us []); [lia|assumption].
Qed.
