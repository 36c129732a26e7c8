(* unicodeLength(p, n) on char16_t and char32_t. *)
From Coq Require Import ZArith List Bool Lia ZifyBool.
From Verif Require Import Machine.
From Verif.Model Require Import Internal Decode Tables Predicate Str.
From Verif.Spec Require Import Utf Target Result Bounded.
From Verif.Proof Require Import Bits Encode DecodeFacts TextFacts ToFuncs IsFuncs LengthFuncs BoundedStep Bounded8.
Import ListNotations.
Local Open Scope Z_scope.

Definition tail16 (tail : list Z) : Prop := tail = [] \/ (exists h, tail = [h] /\ high_surrogate h).
Definition broken16 (tail : list Z) : Prop := exists h more, tail = h :: 0 :: more /\ high_surrogate h.

Definition count16_from (r : Z) (us : list Z) (res : outcome Z) : Prop :=
  (exists v, res = Done v) /\
  (forall cs body tail, us = body ++ tail -> utf16_text cs body -> tail16 tail -> res = Done (r + len cs)) /\
  (forall cs body tail, us = body ++ tail -> utf16_text cs body -> broken16 tail -> res = Done (wrap32 (r + len cs - 1))) /\
  ((forall cs body tail, us = body ++ tail -> utf16_text cs body -> ~ (tail16 tail \/ broken16 tail)) -> res = Done 0).

Lemma text16_front cs body : utf16_text cs body ->
  (cs = [] /\ body = []) \/
  (exists c cs' body', cs = c :: cs' /\ body = c :: body' /\ bmp c /\ utf16_text cs' body') \/
  (exists h l cs' body', cs = pair_value h l :: cs' /\ body = h :: l :: body' /\ high_surrogate h /\ low_surrogate l /\ utf16_text cs' body').
Proof.
  intros [HF ->]. destruct cs as [|c cs]; [left; auto|right]. apply Forall_cons_inv in HF. destruct HF as [[Hc Hs] HF].
  cbn [flat_map]. destruct (Z_lt_dec c 0x10000) as [Hl|Hl].
  - left. exists c, cs, (flat_map utf16_units cs). rewrite utf16_units_bmp by lia. repeat split; auto; lia.
  - right. unfold utf16_units at 1. replace (c <? 0x10000) with false by lia.
    exists (0xD800 + (c - 0x10000) / 0x400), (0xDC00 + (c - 0x10000) mod 0x400), cs, (flat_map utf16_units cs).
    repeat split; auto.
    + f_equal. unfold pair_value. lia.
    + unfold high_surrogate. lia.
    + unfold high_surrogate. lia.
    + unfold low_surrogate. lia.
    + unfold low_surrogate. lia.
Qed.
Lemma text16_plain c cs body : bmp c -> utf16_text cs body -> utf16_text (c :: cs) (c :: body).
Proof.
  intros [Hc Hs] [HF ->]. split; [constructor; [split; [lia|assumption]|assumption]|].
  cbn [flat_map]. now rewrite utf16_units_bmp by lia.
Qed.
Lemma text16_pair h l cs body : high_surrogate h -> low_surrogate l -> utf16_text cs body ->
  utf16_text (pair_value h l :: cs) (h :: l :: body).
Proof.
  intros Hh Hl [HF ->]. destruct (pair_units h l Hh Hl) as (Eu & Hsc & _). split; [now constructor|].
  cbn [flat_map]. now rewrite Eu.
Qed.

(* the shapes the front of the text can have *)
Lemma tail16_head u r : tail16 (u :: r) -> high_surrogate u /\ r = [].
Proof. intros [H|(h & H & Hh)]; [discriminate|]. injection H as -> ->. auto. Qed.
Lemma broken16_head u r : broken16 (u :: r) -> high_surrogate u /\ exists more, r = 0 :: more.
Proof. intros (h & more & H & Hh). injection H as -> ->. eauto. Qed.

Lemma count16_bmp r c us res : bmp c -> count16_from (r + 1) us res -> count16_from r (c :: us) res.
Proof.
  intros Hc (Hd & H1 & H2 & H3).
  assert (Hf : forall cs body tail, c :: us = body ++ tail -> utf16_text cs body -> tail16 tail \/ broken16 tail ->
            exists cs' body', cs = c :: cs' /\ us = body' ++ tail /\ utf16_text cs' body').
  { intros cs body tail E Hb Ht. unfold bmp, surrogate in Hc.
    destruct (text16_front cs body Hb) as [[-> ->]|[(c' & cs' & body' & -> & -> & Hc' & Hb')|(h & l & cs' & body' & -> & -> & Hh & Hl & Hb')]].
    - cbn in E. subst tail. exfalso. destruct Ht as [Ht|Ht]; [apply tail16_head in Ht|apply broken16_head in Ht];
        destruct Ht as [Ht _]; unfold high_surrogate in Ht; lia.
    - cbn in E. injection E as <- ->. eauto.
    - cbn in E. injection E as <- _. unfold high_surrogate in Hh. lia. }
  split; [exact Hd|]. split; [|split].
  - intros cs body tail E Hb Ht. destruct (Hf cs body tail E Hb (or_introl Ht)) as (cs' & body' & -> & E' & Hb').
    rewrite (H1 cs' body' tail E' Hb' Ht), len_cons. f_equal. lia.
  - intros cs body tail E Hb Ht. destruct (Hf cs body tail E Hb (or_intror Ht)) as (cs' & body' & -> & E' & Hb').
    rewrite (H2 cs' body' tail E' Hb' Ht), len_cons. do 2 f_equal. lia.
  - intros H. apply H3. intros cs body tail E Hb. apply (H (c :: cs) (c :: body) tail); [cbn; now rewrite E|now apply text16_plain].
Qed.

Lemma count16_pair r h l us res : high_surrogate h -> low_surrogate l -> count16_from (r + 1) us res ->
  count16_from r (h :: l :: us) res.
Proof.
  intros Hh Hl (Hd & H1 & H2 & H3).
  assert (Hf : forall cs body tail, h :: l :: us = body ++ tail -> utf16_text cs body -> tail16 tail \/ broken16 tail ->
            exists cs' body', cs = pair_value h l :: cs' /\ us = body' ++ tail /\ utf16_text cs' body').
  { intros cs body tail E Hb Ht.
    destruct (text16_front cs body Hb) as [[-> ->]|[(c' & cs' & body' & -> & -> & Hc' & Hb')|(h' & l' & cs' & body' & -> & -> & Hh' & Hl' & Hb')]].
    - cbn in E. subst tail. exfalso. destruct Ht as [Ht|Ht].
      + apply tail16_head in Ht. destruct Ht as [_ Ht]. discriminate.
      + apply broken16_head in Ht. destruct Ht as [_ (more & Ht)]. injection Ht as -> _. unfold low_surrogate in Hl. lia.
    - cbn in E. injection E as <- _. unfold bmp, surrogate, high_surrogate in *. lia.
    - cbn in E. injection E as <- <- ->. eauto. }
  split; [exact Hd|]. split; [|split].
  - intros cs body tail E Hb Ht. destruct (Hf cs body tail E Hb (or_introl Ht)) as (cs' & body' & -> & E' & Hb').
    rewrite (H1 cs' body' tail E' Hb' Ht), len_cons. f_equal. lia.
  - intros cs body tail E Hb Ht. destruct (Hf cs body tail E Hb (or_intror Ht)) as (cs' & body' & -> & E' & Hb').
    rewrite (H2 cs' body' tail E' Hb' Ht), len_cons. do 2 f_equal. lia.
  - intros H. apply H3. intros cs body tail E Hb.
    apply (H (pair_value h l :: cs) (h :: l :: body) tail); [cbn; now rewrite E|now apply text16_pair].
Qed.

(* nothing can be peeled off the front *)
Definition stuck16 (us : list Z) : Prop :=
  forall cs body tail, us = body ++ tail -> utf16_text cs body -> cs = [] /\ body = [].
Lemma stuck16_head u r : ~ bmp u -> ~ (high_surrogate u /\ low_surrogate (hd 0 r)) -> stuck16 (u :: r).
Proof.
  intros H1 H2 cs body tail E Hb.
  destruct (text16_front cs body Hb) as [[-> ->]|[(c' & cs' & body' & -> & -> & Hc' & Hb')|(h' & l' & cs' & body' & -> & -> & Hh' & Hl' & Hb')]];
    [auto| |]; exfalso; cbn in E.
  - injection E as <- _. tauto.
  - injection E as <- ->. cbn in H2. tauto.
Qed.
Lemma count16_stuck r us res : (exists v, res = Done v) -> stuck16 us -> us <> [] ->
  (tail16 us -> res = Done r) -> (broken16 us -> res = Done (wrap32 (r - 1))) ->
  (~ tail16 us -> ~ broken16 us -> res = Done 0) -> count16_from r us res.
Proof.
  intros Hd Hs Hne H1 H2 H3. split; [exact Hd|]. split; [|split].
  - intros cs body tail E Hb Ht. destruct (Hs cs body tail E Hb) as [-> ->]. cbn in E. subst tail. rewrite len_nil, Z.add_0_r. auto.
  - intros cs body tail E Hb Ht. destruct (Hs cs body tail E Hb) as [-> ->]. cbn in E. subst tail. rewrite len_nil, Z.add_0_r. auto.
  - intros H. specialize (H [] [] us eq_refl (conj (Forall_nil _) eq_refl)). apply H3; tauto.
Qed.
Lemma count16_nil r res : res = Done r -> count16_from r [] res.
Proof.
  intros Hr. split; [eauto|]. split; [|split].
  - intros cs body tail E Hb _. symmetry in E. apply app_eq_nil in E. destruct E as [-> ->].
    apply text16_front in Hb. destruct Hb as [[-> _]|[(c & x & y & _ & H & _)|(h & l & x & y & _ & H & _)]]; try discriminate.
    now rewrite len_nil, Z.add_0_r.
  - intros cs body tail E _ (h & more & -> & _). destruct body; discriminate.
  - intros H. exfalso. apply (H [] [] [] eq_refl (conj (Forall_nil _) eq_refl)). left. now left.
Qed.

Lemma ends_single_bmp c us : bmp c -> us <> [] -> ends_single (c :: us) <-> ends_single us.
Proof.
  intros Hc Hne. split.
  - intros (cs & body & x & E & Hb & Hx).
    destruct (text16_front cs body Hb) as [[-> ->]|[(c' & cs' & body' & -> & -> & Hc' & Hb')|(h' & l' & cs' & body' & -> & -> & Hh' & Hl' & Hb')]].
    + cbn in E. injection E as _ ->. congruence.
    + cbn in E. injection E as _ ->. now exists cs', body', x.
    + cbn in E. injection E as -> _. unfold bmp, surrogate, high_surrogate in *. lia.
  - intros (cs & body & x & -> & Hb & Hx). exists (c :: cs), (c :: body), x. split; [reflexivity|]. split; [now apply text16_plain|assumption].
Qed.
Lemma ends_single_pair h l us : high_surrogate h -> low_surrogate l -> ends_single (h :: l :: us) <-> ends_single us.
Proof.
  intros Hh Hl. split.
  - intros (cs & body & x & E & Hb & Hx).
    destruct (text16_front cs body Hb) as [[-> ->]|[(c' & cs' & body' & -> & -> & Hc' & Hb')|(h' & l' & cs' & body' & -> & -> & Hh' & Hl' & Hb')]].
    + discriminate.
    + cbn in E. injection E as -> _. unfold bmp, surrogate, high_surrogate in *. lia.
    + cbn in E. injection E as _ _ ->. now exists cs', body', x.
  - intros (cs & body & x & -> & Hb & Hx). exists (pair_value h l :: cs), (h :: l :: body), x.
    split; [reflexivity|]. split; [now apply text16_pair|assumption].
Qed.
Lemma ends_single_stuck us : stuck16 us -> ends_single us -> exists c, us = [c] /\ bmp c.
Proof. intros Hs (cs & body & x & E & Hb & Hx). destruct (Hs cs body [x] E Hb) as [-> ->]. eauto. Qed.

Lemma unicodeLength16_bounded_loop after n : forall us r, (length us <= n)%nat ->
  Forall unit16 us -> us <> [] -> 0 <= r -> r + len us < 0x100000000 ->
  let res := unicodeLength16_loop true (us ++ after) (remaining (us ++ after) + 1) (len us) r in
  let over := after = [] /\ ends_single us in
  (over /\ res = Undefined) \/ (~ over /\ count16_from r us res).
Proof.
  induction n as [|n IH]; intros us r Hn Hu Hne Hr Hlen; (destruct us as [|u us]; [congruence|]); [cbn in Hn; lia|].
  pose proof (Forall_cons_inv _ _ _ Hu) as [Hu0 Htl]. unfold unit16 in Hu0. rewrite len_cons in *. pose proof (len_pos us) as Hp.
  cbn zeta. cbn [unicodeLength16_loop app].
  destruct (Z.eqb_spec u 0) as [->|Hz].
  { assert (Hs : stuck16 (0 :: us)) by (apply stuck16_head; unfold bmp, high_surrogate; lia).
    right. split.
    - intros [_ H]. apply (ends_single_stuck _ Hs) in H. destruct H as (c & E & Hc). injection E as <- _. unfold bmp in Hc. lia.
    - apply count16_stuck; [eexists; reflexivity|assumption|discriminate| | |reflexivity].
      + intros H. apply tail16_head in H. unfold high_surrogate in H. lia.
      + intros H. apply broken16_head in H. unfold high_surrogate in H. lia. }
  rewrite isSecond_b, isFirst_b.
  destruct ((0xDC00 <=? u) && (u <=? 0xDFFF)) eqn:El.
  { assert (Hs : stuck16 (u :: us)) by (apply stuck16_head; unfold bmp, surrogate, high_surrogate; lia).
    right. split.
    - intros [_ H]. apply (ends_single_stuck _ Hs) in H. destruct H as (c & E & Hc). injection E as <- _. unfold bmp, surrogate in Hc. lia.
    - apply count16_stuck; [eexists; reflexivity|assumption|discriminate| | |reflexivity].
      + intros H. apply tail16_head in H. unfold high_surrogate in H. lia.
      + intros H. apply broken16_head in H. unfold high_surrogate in H. lia. }
  destruct ((0xD800 <=? u) && (u <=? 0xDBFF)) eqn:Eh; cbn [andb].
  - (* high surrogate *)
    assert (Hh : high_surrogate u) by (unfold high_surrogate; lia).
    destruct us as [|x us].
    { rewrite len_nil. change (2 >? 1 + 0) with true. cbn match.
      assert (Hs : stuck16 [u]) by (apply stuck16_head; cbn [hd]; unfold bmp, surrogate, high_surrogate, low_surrogate in *; lia).
      right. split.
      - intros [_ H]. apply (ends_single_stuck _ Hs) in H. destruct H as (c & E & Hc). injection E as <-.
        unfold bmp, surrogate, high_surrogate in *. lia.
      - apply count16_stuck; [eexists; reflexivity|assumption|discriminate|reflexivity| |].
        + intros H. apply broken16_head in H. destruct H as [_ (m & H)]. discriminate.
        + intros H. exfalso. apply H. right. eauto. }
    rewrite len_cons in *. pose proof (len_pos us) as Hp'.
    replace (2 >? 1 + (1 + len us)) with false by lia. cbn [app].
    destruct (Z.eqb_spec x 0) as [->|Hx].
    { assert (Hs : stuck16 (u :: 0 :: us)) by (apply stuck16_head; cbn [hd]; unfold bmp, surrogate, high_surrogate, low_surrogate in *; lia).
      right. split.
      - intros [_ H]. apply (ends_single_stuck _ Hs) in H. destruct H as (c & E & Hc). discriminate.
      - apply count16_stuck; [eexists; reflexivity|assumption|discriminate| |reflexivity|].
        + intros H. apply tail16_head in H. destruct H as [_ H]. discriminate.
        + intros _ H. exfalso. apply H. exists u, us. auto. }
    rewrite isSecond_b. destruct ((0xDC00 <=? x) && (x <=? 0xDFFF)) eqn:Ex.
    + assert (Hl : low_surrogate x) by (unfold low_surrogate; lia).
      assert (Eused : wrap32 (remaining (u :: x :: us ++ after) + 1 - remaining (x :: us ++ after)) = 2).
      { rewrite !remaining_len, !len_cons. replace (_ - _) with 2 by lia. reflexivity. }
      rewrite Eused. rewrite (wrap32_small (r + 1)) by lia.
      destruct (1 + (1 + len us) =? 2) eqn:Elast.
      * assert (us = []) as -> by (apply len_zero; lia). right. split.
        -- intros [_ H]. apply ends_single_pair in H; [|assumption..]. destruct H as (cs & body & c & E & _). destruct body; discriminate.
        -- apply count16_pair; [assumption..|]. now apply count16_nil.
      * assert (Hne' : us <> []) by (intros ->; rewrite len_nil in Elast; lia).
        replace (wrap32 (1 + (1 + len us) - 2)) with (len us) by (rewrite wrap32_small; lia).
        replace (remaining (x :: us ++ after)) with (remaining (us ++ after) + 1) by (rewrite !remaining_len, len_cons; lia).
        apply Forall_cons_inv in Htl. destruct Htl as [_ Htl].
        destruct (IH us (r + 1) ltac:(cbn in Hn; lia) Htl Hne' ltac:(lia) ltac:(lia)) as [[[Ha H'] Hres]|[Hno Hc]].
        -- left. split; [|exact Hres]. split; [assumption|]. now apply ends_single_pair.
        -- right. split; [|now apply count16_pair]. intros [Ha H']. apply Hno. split; [assumption|]. now apply ends_single_pair in H'.
    + cbn match. assert (Hs : stuck16 (u :: x :: us)) by (apply stuck16_head; cbn [hd]; unfold bmp, surrogate, high_surrogate, low_surrogate in *; lia).
      right. split.
      * intros [_ H]. apply (ends_single_stuck _ Hs) in H. destruct H as (c & E & Hc). discriminate.
      * apply count16_stuck; [eexists; reflexivity|assumption|discriminate| | |reflexivity].
        -- intros H. apply tail16_head in H. destruct H as [_ H]. discriminate.
        -- intros H. apply broken16_head in H. destruct H as [_ (m & H)]. injection H as -> _. congruence.
  - (* a single unit *)
    assert (Hc : bmp u) by (unfold bmp, surrogate; lia).
    replace (1 >? 1 + len us) with false by lia.
    destruct (us ++ after) as [|c1 p2] eqn:Epk.
    { apply app_eq_nil in Epk. destruct Epk as [-> ->]. left. split; [|reflexivity]. split; [reflexivity|].
      exists [], [], u. split; [reflexivity|]. split; [split; [constructor|reflexivity]|assumption]. }
    rewrite <- Epk.
    assert (Eused : wrap32 (remaining (u :: us ++ after) + 1 - remaining (u :: us ++ after)) = 1).
    { replace (_ - _) with 1 by lia. reflexivity. }
    rewrite Eused. rewrite (wrap32_small (r + 1)) by lia.
    destruct (1 + len us =? 1) eqn:Elast.
    + assert (us = []) as -> by (apply len_zero; lia). right. split.
      * intros [-> _]. discriminate.
      * apply count16_bmp; [assumption|]. now apply count16_nil.
    + assert (Hne' : us <> []) by (intros ->; rewrite len_nil in Elast; lia).
      replace (wrap32 (1 + len us - 1)) with (len us) by (rewrite wrap32_small; lia).
      replace (remaining (u :: us ++ after)) with (remaining (us ++ after) + 1) by (rewrite !remaining_len, len_cons; lia).
      destruct (IH us (r + 1) ltac:(cbn in Hn; lia) Htl Hne' ltac:(lia) ltac:(lia)) as [[[Ha H'] Hres]|[Hno Hc']].
      * left. split; [|exact Hres]. split; [assumption|]. now apply ends_single_bmp.
      * right. split; [|now apply count16_bmp]. intros [Ha H']. apply Hno. split; [assumption|]. now apply ends_single_bmp in H'.
Qed.

Lemma unicodeLength16_bounded us after : Forall unit16 us -> us <> [] -> len us < 0x100000000 ->
  let res := unicodeLength16 (At (us ++ after)) (len us) in
  let over := after = [] /\ ends_single us in
  (over /\ res = Undefined) \/ (~ over /\ bounded_count16 us (fun v => res = Done v)).
Proof.
  intros Hu Hne Hlen. cbn zeta. unfold unicodeLength16.
  replace (negb (len us =? 0)) with true by (destruct us; [congruence|]; rewrite len_cons; pose proof (len_pos us); lia).
  destruct (unicodeLength16_bounded_loop after (length us) us 0 ltac:(lia) Hu Hne ltac:(lia) ltac:(lia)) as [H|[Ho (Hd & H1 & H2 & H3)]]; [now left|right].
  split; [exact Ho|]. split; [exact Hd|]. split; [|split].
  - intros cs body tail E Hb Ht. exact (H1 cs body tail E Hb Ht).
  - intros cs body h more E Hb Hh. apply (H2 cs body (h :: 0 :: more) E Hb). exists h, more. auto.
  - intros H. apply H3. intros cs body tail E Hb Ht. apply (H cs body tail E Hb). unfold tail16, broken16 in Ht. tauto.
Qed.

(* ---------------------------------------------------------------- UCS-4 *)

Lemma unicodeLength32_bounded_loop after : forall us used r, us <> [] -> 0 <= used -> 0 <= r -> r + len us < 0x100000000 ->
  unicodeLength32_loop (used + len us) (us ++ after) used r =
    Done (if forallb (fun c => negb (c =? 0) && negb (isFirstHalfUtf16 c || isSecondHalfUtf16 c)) us then r + len us else 0).
Proof.
  induction us as [|u us IH]; intros used r Hne Hu Hr Hlen; [congruence|]. rewrite len_cons in *. pose proof (len_pos us) as Hp.
  cbn [unicodeLength32_loop app forallb].
  replace (used + (1 + len us) =? 0) with false by lia. cbn [negb andb].
  destruct (u =? 0); [reflexivity|]. cbn [negb andb].
  destruct (isFirstHalfUtf16 u || isSecondHalfUtf16 u); [reflexivity|]. cbn [negb andb].
  rewrite (wrap32_small (r + 1)) by lia.
  destruct (used + 1 =? used + (1 + len us)) eqn:E.
  - assert (us = []) as -> by (apply len_zero; lia). reflexivity.
  - assert (us <> []) by (intros ->; rewrite len_nil in E; lia).
    replace (used + (1 + len us)) with (used + 1 + len us) by lia. rewrite IH by (try assumption; lia).
    destruct (forallb _ us); [f_equal; lia|reflexivity].
Qed.
Lemma unicodeLength32_bounded us after : Forall unit32 us -> us <> [] -> len us < 0x100000000 ->
  bounded_count32 us (fun v => unicodeLength32 (At (us ++ after)) (len us) = Done v).
Proof.
  intros Hu Hne Hlen. unfold unicodeLength32. pose proof (unicodeLength32_bounded_loop after us 0 0 Hne ltac:(lia) ltac:(lia) ltac:(lia)) as E.
  rewrite !Z.add_0_l in E. unfold bounded_count32. rewrite E.
  assert (Hiff : forallb (fun c => negb (c =? 0) && negb (isFirstHalfUtf16 c || isSecondHalfUtf16 c)) us = true <-> Forall (fun c => c <> 0 /\ ~ surrogate c) us).
  { apply (forallb_spec _ _ unit32); [|exact Hu]. intros c _. rewrite isFirst_b, isSecond_b. unfold surrogate. lia. }
  split; intros H'.
  - now replace (forallb _ us) with true by (symmetry; tauto).
  - destruct (forallb _ us); [tauto|reflexivity].
Qed.
