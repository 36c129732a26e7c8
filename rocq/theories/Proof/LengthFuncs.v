(* unicodeLength, NUL-terminated calls. *)
From Coq Require Import ZArith List Bool Lia ZifyBool.
From Verif Require Import Machine.
From Verif.Model Require Import Internal Decode Tables Predicate Str.
From Verif.Spec Require Import Utf Target Result.
From Verif.Proof Require Import Bits Encode DecodeFacts TextFacts ToFuncs IsFuncs.
Import ListNotations.
Local Open Scope Z_scope.


Lemma wrap32_add r k : wrap32 (wrap32 r + k) = wrap32 (r + k).
Proof. unfold wrap32. now rewrite Zplus_mod_idemp_l. Qed.
Lemma wrap32_step r (l : list Z) (c : Z) : wrap32 (wrap32 (r + 1) + len l) = wrap32 (r + len (c :: l)).
Proof. rewrite wrap32_add. f_equal. unfold len. cbn [length]. lia. Qed.
Lemma wrap32_step' r (l : list Z) (c : Z) : wrap32 (wrap32 (r + 1) + len l - 1) = wrap32 (r + len (c :: l) - 1).
Proof.
  replace (wrap32 (r + 1) + len l - 1) with (wrap32 (r + 1) + (len l - 1)) by lia.
  rewrite wrap32_add. f_equal. unfold len. cbn [length]. lia.
Qed.

Lemma unicodeFlag_spec c : 0 < c < 0x80000000 -> ~ surrogate c ->
  (Z.land (rangeFlagOf kUnicode) (getCharEncodableRangeFlags c) =? 0) = negb (c <=? 0x10FFFF).
Proof.
  intros Hc Hn. rewrite Z.land_comm. change kUnicode with (code Unicode). rewrite charFlag_spec by lia.
  unfold surrogate in Hn. cbn [range32]. lia.
Qed.


(* ---------------------------------------------------------------- UTF-8 *)

Lemma unicodeLength8_loop_exact junk pl ll n : forall bs fuel r, (length bs <= n)%nat -> (n < fuel)%nat ->
  text8 bs -> 0 <= r < 0x100000000 ->
  let res := unicodeLength8_loop false fuel (bs ++ 0 :: junk) pl ll r in
  (forall cs, utf8_text cs bs -> Forall upto cs -> res = Done (wrap32 (r + len cs))) /\
  (forall cs body tail, bs = body ++ tail -> utf8_text cs body -> cut_short tail -> Forall upto cs ->
     res = Done (wrap32 (r + len cs - 1))) /\
  ((forall cs, reads_as cs bs -> ~ Forall upto cs) -> res = Done 0).
Proof.
  assert (Hnil : forall r, 0 <= r < 0x100000000 ->
    (forall cs, utf8_text cs [] -> Forall upto cs -> Done r = Done (wrap32 (r + len cs))) /\
    (forall cs body tail, [] = body ++ tail -> utf8_text cs body -> cut_short tail -> Forall upto cs ->
      Done r = Done (wrap32 (r + len cs - 1))) /\
    ((forall cs, reads_as cs [] -> ~ Forall upto cs) -> Done r = Done 0)).
  { intros r Hr. repeat split.
    - intros cs H _. apply reads_as_text, reads_as_nil_inv in H. subst. unfold len. cbn.
      rewrite Z.add_0_r, wrap32_id by lia. reflexivity.
    - intros cs body tail E _ Ht _. symmetry in E. apply app_eq_nil in E. destruct E as [_ ->]. now apply cut_ne in Ht.
    - intros H. exfalso. apply (H [] reads_as_nil). constructor. }
  induction n as [|n IH]; intros bs fuel r Hn Hf Hb Hr; (destruct fuel as [|fuel]; [lia|]).
  { destruct bs; [|cbn in Hn; lia]. cbn. apply Hnil. assumption. }
  destruct bs as [|b bs]. { cbn. apply Hnil. assumption. }
  pose proof (Forall_cons_inv _ _ _ Hb) as [Hb0 _].
  cbn [unicodeLength8_loop app deref bind]. replace (b =? 0) with false by lia.
  change (b :: bs ++ 0 :: junk) with ((b :: bs) ++ 0 :: junk).
  destruct (scan_cases (b :: bs) junk Hb ltac:(discriminate)) as [c s rest E Hs D|Hc D|Hbad D];
    rewrite D; cbn [bind].
  - pose proof (seq_range _ _ Hs) as [Hrg Hns].
    assert (Hlen : (length rest <= n)%nat).
    { rewrite E, app_length in Hn. pose proof (seq_ne _ _ Hs). destruct s; [congruence|cbn [length] in Hn; lia]. }
    assert (Hb' : text8 rest) by (rewrite E in Hb; apply text8_app in Hb; tauto).
    rewrite unicodeFlag_spec by assumption. rewrite E.
    assert (Hcs : forall cs, reads_as cs (s ++ rest) -> exists cs', cs = c :: cs' /\ reads_as cs' rest).
    { intros cs H. exact (reads_as_seq_inv c s cs rest Hs H). }
    destruct (c <=? 0x10FFFF) eqn:Ec; cbn [negb].
    + replace (c =? 0) with false by lia. cbn [andb incr bind].
      destruct (IH rest fuel (wrap32 (r + 1)) Hlen ltac:(lia) Hb') as (H1 & H2 & H3); [unfold wrap32; lia|].
      repeat split.
      * intros cs H HF. apply utf8_text_inv in H. destruct H as [[_ E0]|(c' & s' & cs' & bs' & -> & E0 & Hs' & Hb'')].
        { apply app_eq_nil in E0. destruct E0 as [-> _]. now apply seq_ne in Hs. }
        destruct (seq_unique _ _ _ _ _ _ Hs Hs' E0) as (-> & -> & ->).
        rewrite (H1 cs') by (try assumption; apply Forall_cons_inv in HF; tauto). f_equal. apply wrap32_step.
      * intros cs body tail E0 H Ht HF. apply utf8_text_inv in H.
        destruct H as [[-> ->]|(c' & s' & cs' & bs' & -> & -> & Hs' & Hb'')].
        { exfalso. cbn [app] in E0. eapply cut_no_seq; [exact Ht|exact Hs|symmetry; exact E0]. }
        rewrite <- app_assoc in E0. destruct (seq_unique _ _ _ _ _ _ Hs Hs' E0) as (-> & -> & ->).
        rewrite (H2 cs' bs' tail) by (try assumption; try reflexivity; apply Forall_cons_inv in HF; tauto).
        f_equal. apply wrap32_step'.
      * intros H. apply H3. intros cs Hr' HF. apply (H (c :: cs)); [now apply reads_as_cons|].
        constructor; [unfold upto; lia|assumption].
    + repeat split.
      * intros cs H HF. exfalso. apply reads_as_text, Hcs in H. destruct H as (cs' & -> & _).
        apply Forall_cons_inv in HF. unfold upto in HF. lia.
      * intros cs body tail E0 H Ht HF. exfalso.
        assert (Hra : reads_as cs (s ++ rest)) by (rewrite E0; exists body, tail; auto).
        apply Hcs in Hra. destruct Hra as (cs' & -> & _). apply Forall_cons_inv in HF. unfold upto in HF. lia.
  - cbn [Z.eqb]. change (Z.land (rangeFlagOf kUnicode) (getCharEncodableRangeFlags 0) =? 0) with false.
    cbn [deref bind Z.eqb]. repeat split.
    + intros cs H _. exfalso. apply utf8_text_inv in H. destruct H as [[_ E0]|(c' & s' & cs' & bs' & -> & E0 & Hs' & _)]; [discriminate|].
      eapply cut_no_seq; eassumption.
    + intros cs body tail E0 H Ht HF. assert (cs = []) as ->.
      { apply (reads_as_cut_inv (b :: bs)); [assumption|]. exists body, tail. auto. }
      f_equal. f_equal. unfold len. cbn. lia.
    + intros H. exfalso. apply (H []); [now apply reads_as_cut|constructor].
  - repeat split.
    + intros cs H. exfalso. exact (Hbad _ (reads_as_text _ _ H)).
    + intros cs body tail E0 H Ht. exfalso. apply (Hbad cs). exists body, tail. auto.
Qed.

Lemma unicodeLength8_exact bs junk : text8 bs ->
  let res := unicodeLength8 (At (bs ++ 0 :: junk)) 0 in
  (forall cs, utf8_text cs bs -> Forall upto cs -> res = Done (wrap32 (len cs))) /\
  (forall cs body tail, bs = body ++ tail -> utf8_text cs body -> cut_short tail -> Forall upto cs ->
     res = Done (wrap32 (len cs - 1))) /\
  ((forall cs, reads_as cs bs -> ~ Forall upto cs) -> res = Done 0).
Proof.
  intros Hb. cbn zeta.
  replace (unicodeLength8 (At (bs ++ 0 :: junk)) 0) with
    (unicodeLength8_loop false (S (length (bs ++ 0 :: junk))) (bs ++ 0 :: junk) (remaining (bs ++ 0 :: junk) + 1) 0 0).
  - apply (unicodeLength8_loop_exact junk _ _ (length bs)); [lia|rewrite app_length; lia|assumption|lia].
  - destruct bs as [|b bs]; [reflexivity|]. pose proof (Forall_cons_inv _ _ _ Hb) as [Hb0 _].
    cbn [unicodeLength8 app deref bind]. now replace (b =? 0) with false by lia.
Qed.

(* ---------------------------------------------------------------- UTF-16 *)

Lemma utf16_text_reads cs us : utf16_text cs us -> reads_as16 cs us.
Proof. intros H. exists us, []. rewrite app_nil_r. auto. Qed.

Lemma unicodeLength16_loop_exact junk pl ll n : forall us r, (length us <= n)%nat ->
  text16 us -> 0 <= r < 0x100000000 ->
  let res := unicodeLength16_loop false (us ++ 0 :: junk) pl ll r in
  (forall cs, utf16_text cs us -> res = Done (wrap32 (r + len cs))) /\
  (forall cs body h, us = body ++ [h] -> utf16_text cs body -> high_surrogate h ->
     res = Done (wrap32 (r + len cs - 1))) /\
  ((forall cs, ~ reads_as16 cs us) -> res = Done 0).
Proof.
  assert (Hnil : forall r, 0 <= r < 0x100000000 ->
    (forall cs, utf16_text cs [] -> Done r = Done (wrap32 (r + len cs))) /\
    (forall cs body h, [] = body ++ [h] -> utf16_text cs body -> high_surrogate h ->
      Done r = Done (wrap32 (r + len cs - 1))) /\
    ((forall cs, ~ reads_as16 cs []) -> Done r = Done 0)).
  { intros r Hr. repeat split.
    - intros cs H. apply utf16_text_reads, reads16_nil_inv in H. subst. unfold len. cbn.
      rewrite Z.add_0_r, wrap32_id by lia. reflexivity.
    - intros cs body h E. symmetry in E. apply app_eq_nil in E. destruct E as [_ E]. discriminate.
    - intros H. exfalso. apply (H [] reads16_nil). }
  induction n as [|n IH]; intros us r Hn Ht Hr.
  { destruct us; [|cbn in Hn; lia]. cbn. apply Hnil. assumption. }
  destruct us as [|u us]. { cbn. apply Hnil. assumption. }
  pose proof (Forall_cons_inv _ _ _ Ht) as [Hu Htl].
  cbn [unicodeLength16_loop app]. replace (u =? 0) with false by lia.
  rewrite isSecond_b, isFirst_b.
  destruct (scan16_cases (u :: us) Ht ltac:(discriminate)) as [c r' E Hc|h l r' E Hh Hl|h E Hh|h x r' E Hh Hx|l r' E Hl];
    injection E as -> ->.
  - assert (Hns : ~ surrogate c) by apply Hc. unfold surrogate in Hns.
    replace ((0xDC00 <=? c) && (c <=? 0xDFFF)) with false by lia.
    replace ((0xD800 <=? c) && (c <=? 0xDBFF)) with false by lia. cbn [andb].
    assert (Hpeek : exists c1 p2, r' ++ 0 :: junk = c1 :: p2) by (destruct r'; cbn; eauto).
    destruct Hpeek as (c1 & p2 & Epk).
    replace (match r' ++ 0 :: junk with [] => Undefined | _ :: _ =>
        unicodeLength16_loop false (r' ++ 0 :: junk) pl ll (wrap32 (r + 1)) end)
      with (unicodeLength16_loop false (r' ++ 0 :: junk) pl ll (wrap32 (r + 1))) by now rewrite Epk.
    destruct (IH r' (wrap32 (r + 1)) ltac:(cbn in Hn; lia) Htl) as (H1 & H2 & H3); [unfold wrap32; lia|].
    repeat split.
    + intros cs H. assert (Hr16 := H). apply utf16_text_reads in Hr16.
      destruct (reads16_plain_inv _ _ _ Hc Hr16) as (cs' & -> & _).
      rewrite (H1 cs'); [f_equal; apply wrap32_step|]. destruct H as [HF E]. cbn [flat_map] in E.
      rewrite utf16_units_bmp in E by lia. injection E as E. split; [|exact E]. now apply Forall_cons_inv in HF.
    + intros cs body h E H Hh. assert (Hr16 : reads_as16 cs (c :: r')) by (rewrite E; exists body, [h]; eauto 6).
      destruct (reads16_plain_inv _ _ _ Hc Hr16) as (cs' & -> & _).
      destruct H as [HF ->]. cbn [flat_map] in E. rewrite utf16_units_bmp in E by lia. injection E as E.
      rewrite (H2 cs' (flat_map utf16_units cs') h); [f_equal; apply wrap32_step'|exact E| |assumption].
      split; [|reflexivity]. now apply Forall_cons_inv in HF.
    + intros H. apply H3. intros cs Hcs. apply (H (c :: cs)). now apply reads16_plain.
  - assert (0xD800 <= h <= 0xDBFF) by exact Hh. assert (0xDC00 <= l <= 0xDFFF) by exact Hl.
    replace ((0xDC00 <=? h) && (h <=? 0xDFFF)) with false by lia.
    replace ((0xD800 <=? h) && (h <=? 0xDBFF)) with true by lia. cbn [app andb].
    replace (l =? 0) with false by lia. rewrite isSecond_b.
    replace ((0xDC00 <=? l) && (l <=? 0xDFFF)) with true by lia. cbn [andb].
    pose proof (Forall_cons_inv _ _ _ Htl) as [_ Htr].
    destruct (pair_units h l Hh Hl) as (Eu & Hsc & Hrg).
    destruct (IH r' (wrap32 (r + 1)) ltac:(cbn in Hn; lia) Htr) as (H1 & H2 & H3); [unfold wrap32; lia|].
    repeat split.
    + intros cs H'. assert (Hr16 := H'). apply utf16_text_reads in Hr16.
      destruct (reads16_pair_inv _ _ _ _ Hh Hl Hr16) as (cs' & -> & _).
      rewrite (H1 cs'); [f_equal; apply wrap32_step|]. destruct H' as [HF E]. cbn [flat_map] in E.
      rewrite Eu in E. injection E as E. split; [|exact E]. now apply Forall_cons_inv in HF.
    + intros cs body h' E H' Hh'. assert (Hr16 : reads_as16 cs (h :: l :: r')) by (rewrite E; exists body, [h']; eauto 6).
      destruct (reads16_pair_inv _ _ _ _ Hh Hl Hr16) as (cs' & -> & _).
      destruct H' as [HF ->]. cbn [flat_map] in E. rewrite Eu in E. injection E as E.
      rewrite (H2 cs' (flat_map utf16_units cs') h'); [f_equal; apply wrap32_step'|exact E| |assumption].
      split; [|reflexivity]. now apply Forall_cons_inv in HF.
    + intros H'. apply H3. intros cs Hcs. apply (H' (pair_value h l :: cs)). now apply reads16_pair.
  - assert (0xD800 <= h <= 0xDBFF) by exact Hh.
    replace ((0xDC00 <=? h) && (h <=? 0xDFFF)) with false by lia.
    replace ((0xD800 <=? h) && (h <=? 0xDBFF)) with true by lia. cbn [app andb Z.eqb]. repeat split.
    + intros cs H'. exfalso. pose proof (utf16_text_reads _ _ H') as Hr16. rewrite (reads16_last_inv _ _ Hh Hr16) in H'.
      destruct H' as [_ E]. discriminate.
    + intros cs body h' E H' Hh'. assert (Hr16 : reads_as16 cs [h]) by (rewrite E; exists body, [h']; eauto 6).
      rewrite (reads16_last_inv _ _ Hh Hr16). f_equal. f_equal. unfold len. cbn. lia.
    + intros H'. exfalso. apply (H' []). now apply reads16_high.
  - assert (0xD800 <= h <= 0xDBFF) by exact Hh.
    replace ((0xDC00 <=? h) && (h <=? 0xDFFF)) with false by lia.
    replace ((0xD800 <=? h) && (h <=? 0xDBFF)) with true by lia. cbn [app andb].
    pose proof (Forall_cons_inv _ _ _ Htl) as [Hx0 _].
    replace (x =? 0) with false by lia. rewrite isSecond_b. assert (Hx' := Hx). unfold low_surrogate in Hx'.
    replace ((0xDC00 <=? x) && (x <=? 0xDFFF)) with false by lia. cbn [andb]. repeat split.
    + intros cs H'. exfalso. apply utf16_text_reads in H'. eapply reads16_high_inv; eassumption.
    + intros cs body h' E H' Hh'. exfalso. assert (Hr16 : reads_as16 cs (h :: x :: r')) by (rewrite E; exists body, [h']; eauto 6).
      exact (reads16_high_inv _ _ _ _ Hh Hx Hr16).
  - assert (0xDC00 <= l <= 0xDFFF) by exact Hl.
    replace ((0xDC00 <=? l) && (l <=? 0xDFFF)) with true by lia. repeat split.
    + intros cs H'. exfalso. apply utf16_text_reads in H'. eapply reads16_low_inv; eassumption.
    + intros cs body h' E H' Hh'. exfalso. assert (Hr16 : reads_as16 cs (l :: r')) by (rewrite E; exists body, [h']; eauto 6).
      eapply reads16_low_inv; eassumption.
Qed.

Lemma unicodeLength16_exact us junk : text16 us ->
  let res := unicodeLength16 (At (us ++ 0 :: junk)) 0 in
  (forall cs, utf16_text cs us -> res = Done (wrap32 (len cs))) /\
  (forall cs body h, us = body ++ [h] -> utf16_text cs body -> high_surrogate h ->
     res = Done (wrap32 (len cs - 1))) /\
  ((forall cs, ~ reads_as16 cs us) -> res = Done 0).
Proof.
  intros H. apply (unicodeLength16_loop_exact junk _ _ (length us) us 0); [lia|assumption|lia].
Qed.

(* ---------------------------------------------------------------- UCS-4 *)

Lemma unicodeLength32_loop_exact junk : forall us used r, ~ In 0 us -> 0 <= r < 0x100000000 ->
  unicodeLength32_loop 0 (us ++ 0 :: junk) used r =
    Done (if forallb (fun c => negb (isFirstHalfUtf16 c || isSecondHalfUtf16 c)) us then wrap32 (r + len us) else 0).
Proof.
  induction us as [|u us IH]; intros used r Hz Hr; cbn.
  - unfold len. cbn. now rewrite Z.add_0_r, wrap32_id by lia.
  - destruct (Z.eqb_spec u 0); [subst; exfalso; apply Hz; now left|].
    destruct (isFirstHalfUtf16 u || isSecondHalfUtf16 u); [reflexivity|]. cbn [negb andb].
    rewrite IH; [|intros Hi; apply Hz; now right|unfold wrap32; lia].
    destruct (forallb _ us); [|reflexivity]. f_equal. exact (wrap32_step r us u).
Qed.

Lemma unicodeLength32_exact us junk : text32 us ->
  let res := unicodeLength32 (At (us ++ 0 :: junk)) 0 in
  (Forall (fun c => ~ surrogate c) us -> res = Done (wrap32 (len us))) /\
  (~ Forall (fun c => ~ surrogate c) us -> res = Done 0).
Proof.
  intros H. cbn [unicodeLength32]. rewrite unicodeLength32_loop_exact by (try apply text32_no_zero; auto; lia).
  rewrite Z.add_0_l.
  assert (Hiff : forallb (fun c => negb (isFirstHalfUtf16 c || isSecondHalfUtf16 c)) us = true <-> Forall (fun c => ~ surrogate c) us).
  { apply (forallb_spec _ _ (fun u => 0 < u < 0x100000000)); [|exact H]. intros c _. rewrite isFirst_b, isSecond_b. unfold surrogate. lia. }
  split; intros H'.
  - now replace (forallb _ us) with true by (symmetry; tauto).
  - destruct (forallb _ us); [tauto|reflexivity].
Qed.
