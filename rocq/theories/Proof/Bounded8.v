(* The length-bounded isUtf8 and unicodeLength(const char*, n): exact results, and what they read. *)
From Coq Require Import ZArith List Bool Lia ZifyBool.
From Verif Require Import Machine.
From Verif.Model Require Import Internal Decode Tables Predicate Str.
From Verif.Spec Require Import Utf Target Result Bounded.
From Verif.Proof Require Import Bits Encode DecodeFacts TextFacts ToFuncs IsFuncs LengthFuncs BoundedStep.
Import ListNotations.
Local Open Scope Z_scope.

(* ---------------------------------------------------------------- taking a text apart at the front *)

Definition no_seq (bs : list Z) : Prop := forall c s rest, bs = s ++ rest -> ~ utf8_seq c s.

Lemma no_seq_decode bs after c q : decodeUtf8 (bs ++ after) = Done (c, q) -> c = 0 -> no_seq bs.
Proof.
  intros D Hc c' s rest E Hs. subst bs. rewrite <- app_assoc in D. rewrite (decode_valid c' s (rest ++ after) Hs) in D.
  injection D as D _. pose proof (seq_range _ _ Hs) as [Hr _]. lia.
Qed.
Lemma no_seq_short bs : len bs < announced bs -> no_seq bs.
Proof. intros H c s rest -> Hs. destruct (announced_seq c s rest Hs) as [E _]. rewrite len_app in H. pose proof (len_pos rest). lia. Qed.
Lemma no_seq_low bs : low_start bs -> no_seq bs.
Proof. intros H c s rest -> Hs. now destruct (announced_seq c s rest Hs). Qed.
Lemma no_seq_lead bs : sequence_lead (hd 0 bs) = false \/ hd 0 bs = 0 -> no_seq bs.
Proof.
  intros H c s rest -> Hs. rewrite (seq_hd c s rest Hs) in H. pose proof (lead_of_seq _ _ Hs) as Hl.
  pose proof (seq_range _ _ Hs) as [Hr _]. unfold sequence_lead in H. lia.
Qed.

Lemma text_front cs body tail bs : utf8_text cs body -> bs = body ++ tail -> no_seq bs -> cs = [] /\ body = [].
Proof.
  intros Hb E Hn. destruct Hb as [|c s cs' bs' Hs Hb]; [auto|]. exfalso. apply (Hn c s (bs' ++ tail)); [|assumption].
  now rewrite E, app_assoc.
Qed.
Lemma text_front_seq cs body tail c s rest : utf8_text cs body -> s ++ rest = body ++ tail -> utf8_seq c s ->
  (cs = [] /\ body = [] /\ tail = s ++ rest) \/ exists cs' body', cs = c :: cs' /\ body = s ++ body' /\ utf8_text cs' body' /\ rest = body' ++ tail.
Proof.
  intros Hb E Hs. destruct Hb as [|c' s' cs' bs' Hs' Hb].
  - left. cbn in E. auto.
  - right. rewrite <- app_assoc in E. destruct (seq_unique _ _ _ _ _ _ Hs Hs' E) as (-> & -> & ->). eauto 6.
Qed.

Lemma seq_not_tail c s rest : utf8_seq c s -> ~ runs_out (s ++ rest) /\ ~ zero_inside (s ++ rest).
Proof.
  intros Hs. destruct (announced_seq c s rest Hs) as [E Hl]. split.
  - intros [H _]. rewrite len_app in H. pose proof (len_pos rest). lia.
  - intros (t & more & E' & Ht & _). pose proof (decode_cut t more Ht) as D. rewrite <- E' in D.
    rewrite (decode_valid c s rest Hs) in D. injection D as D _. pose proof (seq_range _ _ Hs) as [Hr _]. lia.
Qed.

Lemma bounded8_seq ok c s rest : utf8_seq c s -> bounded8 ok (s ++ rest) <-> ok c /\ bounded8 ok rest.
Proof.
  intros Hs. split.
  - intros (cs & body & tail & E & Hb & Hf & Ht).
    destruct (text_front_seq cs body tail c s rest Hb E Hs) as [(-> & -> & ->)|(cs' & body' & -> & -> & Hb' & ->)].
    + exfalso. destruct (seq_not_tail c s rest Hs) as [H1 H2]. pose proof (seq_ne _ _ Hs) as Hn.
      destruct Ht as [Ht|[Ht|Ht]]; [|tauto|tauto]. apply app_eq_nil in Ht. tauto.
    + apply Forall_cons_inv in Hf. split; [tauto|]. exists cs', body', tail. tauto.
  - intros [Hc (cs & body & tail & -> & Hb & Hf & Ht)]. exists (c :: cs), (s ++ body), tail.
    rewrite app_assoc. repeat split; [constructor; assumption|constructor; assumption|assumption].
Qed.
Lemma bounded8_nil ok : bounded8 ok [].
Proof. exists [], [], []. repeat split; [constructor|constructor|now left]. Qed.
Lemma bounded8_no_seq ok bs : no_seq bs -> bs <> [] -> bounded8 ok bs <-> runs_out bs \/ zero_inside bs.
Proof.
  intros Hn Hne. split.
  - intros (cs & body & tail & E & Hb & Hf & Ht). destruct (text_front cs body tail bs Hb E Hn) as [-> ->]. cbn in E. subst tail.
    destruct Ht as [Ht|Ht]; [congruence|exact Ht].
  - intros H. exists [], [], bs. repeat split; [constructor|constructor|now right].
Qed.

Lemma two_of_three_seq ok c s rest : utf8_seq c s -> two_of_three ok (s ++ rest) <-> ok c /\ two_of_three ok rest.
Proof.
  intros Hs. split.
  - intros (cs & body & b & x & E & Hb & Hf & Hx).
    destruct (text_front_seq cs body [b; x] c s rest Hb E Hs) as [(-> & -> & E')|(cs' & body' & -> & -> & Hb' & ->)].
    + exfalso. destruct (announced_seq c s rest Hs) as [Ea _]. rewrite <- E' in Ea.
      assert (len s <= 2). { change 2 with (len [b; x]). rewrite E', len_app. pose proof (len_pos rest). lia. }
      cbn [announced] in Ea. revert Ea. ifs; lia.
    + apply Forall_cons_inv in Hf. split; [tauto|]. exists cs', body', b, x. tauto.
  - intros [Hc (cs & body & b & x & -> & Hb & Hf & Hx)]. exists (c :: cs), (s ++ body), b, x.
    rewrite app_assoc. repeat split; [constructor; assumption|constructor; assumption|lia|lia].
Qed.
Lemma two_of_three_no_seq ok bs : no_seq bs -> two_of_three ok bs <-> exists b x, bs = [b; x] /\ 0xE0 <= b <= 0xEF.
Proof.
  intros Hn. split.
  - intros (cs & body & b & x & E & Hb & Hf & Hx). destruct (text_front cs body _ bs Hb E Hn) as [-> ->]. cbn in E. eauto.
  - intros (b & x & -> & Hx). exists [], [], b, x. repeat split; [constructor|constructor|lia|lia].
Qed.

Lemma cut_lead t : cut_short t -> 0xC0 <= hd 0 t <= 0xFD.
Proof. intros H. destruct H as [b n conts Hl _ _|a b _ _|a b x conts _ _ _ _ _]; cbn [hd]; unfold lead in *; lia. Qed.

Lemma zero_inside_lead bs : zero_inside bs -> 0xC0 <= hd 0 bs <= 0xFD.
Proof.
  intros (t & more & -> & Ht & _). pose proof (cut_lead t Ht). pose proof (cut_ne t Ht). destruct t; [congruence|exact H].
Qed.
Lemma runs_out_lead bs : bs <> [] -> runs_out bs -> 0xC0 <= hd 0 bs <= 0xFD.
Proof.
  intros Hne [H _]. destruct bs as [|b r]; [congruence|]. rewrite len_cons in H. pose proof (len_pos r). cbn [announced] in H. cbn [hd].
  revert H. destruct r as [|x [|y r]]; ifs; lia.
Qed.

(* ---------------------------------------------------------------- isUtf8(p, n) *)

Definition passes T pred (c : Z) : Prop := pred32 T pred c = true.

Lemma wrap32_small x : 0 <= x < 0x100000000 -> wrap32 x = x.
Proof. unfold wrap32. apply Z.mod_small. Qed.

Lemma bytes_app a b : bytes (a ++ b) <-> bytes a /\ bytes b.
Proof. apply Forall_app. Qed.

Lemma answers_false_intro (P : Prop) : ~ P -> answers Done (Done false) P.
Proof. exact answer_false. Qed.
Lemma answers_true_intro (P : Prop) : P -> answers Done (Done true) P.
Proof. exact answer_true. Qed.

Lemma isUtf8_bounded_loop T pred after n : forall bs fuel, (length bs <= n)%nat -> (n < fuel)%nat ->
  bytes (bs ++ after) -> bs <> [] -> len bs < 0x100000000 ->
  let res := isUtf8_loop T pred (rangeFlagOf (code Utf8)) true fuel (bs ++ after) (remaining (bs ++ after) + 1) (len bs) in
  let over := after = [] /\ two_of_three (passes T pred) bs in
  (over /\ res = Undefined) \/ (~ over /\ answers Done res (bounded8 (passes T pred) bs)).
Proof.
  induction n as [|n IH]; intros bs fuel Hn Hf Hby Hne Hlen; (destruct fuel as [|fuel]; [lia|]).
  { destruct bs; [congruence|cbn in Hn; lia]. }
  cbn zeta. destruct bs as [|b r] eqn:Ebs; [congruence|]. rewrite <- Ebs in *.
  assert (Hhd : hd 0 bs = b) by (rewrite Ebs; reflexivity).
  assert (Hb : 0 <= b < 0x100) by (rewrite Ebs in Hby; apply Forall_cons_inv in Hby; exact (proj1 Hby)).
  assert (Ed : deref (bs ++ after) = Done b) by (rewrite Ebs; reflexivity).
  cbn [isUtf8_loop]. rewrite Ed. cbn [bind]. clear Ed.
  destruct (Z.eqb_spec b 0) as [Hz|Hz].
  { (* a zero where a sequence should start *)
    pose proof (no_seq_lead bs ltac:(right; lia)) as Hns. cbn [negb]. right. split.
    - intros [_ H]. apply two_of_three_no_seq in H; [|assumption]. destruct H as (b' & x & E & Hx). rewrite E in Hhd. cbn in Hhd. lia.
    - apply answers_false_intro. intros H. apply bounded8_no_seq in H; [|assumption..].
      destruct H as [H|H]; [apply runs_out_lead in H; [|assumption]|apply zero_inside_lead in H]; lia. }
  rewrite leadFlag_spec by lia. cbn [lead8].
  change ((b <=? 0x7f) || (0xbf <? b) && (b <=? 0xfd)) with (sequence_lead b).
  destruct (sequence_lead b) eqn:El; cbn [negb].
  2:{ pose proof (no_seq_lead bs ltac:(left; now rewrite Hhd)) as Hns. unfold sequence_lead in El. right. split.
      - intros [_ H]. apply two_of_three_no_seq in H; [|assumption]. destruct H as (b' & x & E & Hx). rewrite E in Hhd. cbn in Hhd. lia.
      - apply answers_false_intro. intros H. apply bounded8_no_seq in H; [|assumption..].
        destruct H as [H|H]; [apply runs_out_lead in H; [|assumption]|apply zero_inside_lead in H]; lia. }
  (* does the check read past the end? *)
  assert (Hcase : (after = [] /\ exists x, bs = [b; x] /\ 0xE0 <= b <= 0xEF) \/
                  (2 < len bs \/ after <> [] \/ ~ (0xE0 <= hd 0 bs <= 0xEF) \/ len bs < 2)).
  { destruct after as [|a after]; [|right; right; left; discriminate].
    destruct r as [|x [|y r]]; rewrite Ebs; unfold len; cbn [length hd]; [lia| |lia].
    destruct (Z_le_dec 0xE0 b), (Z_le_dec b 0xEF); [left; eauto|lia|lia|lia]. }
  destruct Hcase as [(-> & x & E & Hx)|Hsafe].
  { left. rewrite E. split; [split; [reflexivity|]|].
    - exists [], [], b, x. repeat split; [constructor|constructor|lia|lia].
    - cbn [app]. change (len [b; x]) with 2. apply lengthCheck_over. lia. }
  match goal with |- context [lengthCheck _ b _ ?x ?y ?k] =>
    replace (lengthCheck (bs ++ after) b (len bs) x y k) with
      (if low_start_b bs then Done x else if len bs <? announced bs then Done y else k (announced bs))
      by (rewrite <- Hhd; symmetry; apply lengthCheck_spec; first [assumption | rewrite Hhd; first [assumption | lia]])
  end.
  assert (Hnot : forall b' x, after = [] -> bs = [b'; x] -> ~ (0xE0 <= b' <= 0xEF)).
  { intros b' x Ha E Hx. rewrite E in Hhd. cbn in Hhd. subst b'. rewrite E in Hsafe. unfold len in Hsafe; cbn [length hd] in Hsafe.
    destruct Hsafe as [H|[H|[H|H]]]; [lia|congruence|lia|lia]. }
  destruct (low_start_b bs) eqn:Elow.
  { apply low_start_dec in Elow. pose proof (no_seq_low bs Elow) as Hns. right. split.
    - intros [Ha H]. apply two_of_three_no_seq in H; [|assumption]. destruct H as (b' & x & E & Hx). exact (Hnot b' x Ha E Hx).
    - apply answers_false_intro. intros H. apply bounded8_no_seq in H; [|assumption..]. destruct H as [[_ H]|(t & m & _ & _ & H)]; tauto. }
  assert (Hlow : ~ low_start bs) by (intros H; apply low_start_dec in H; congruence).
  destruct (len bs <? announced bs) eqn:Eroom.
  { pose proof (no_seq_short bs ltac:(lia)) as Hns. right. split.
    - intros [Ha H]. apply two_of_three_no_seq in H; [|assumption]. destruct H as (b' & x & E & Hx). exact (Hnot b' x Ha E Hx).
    - apply answers_true_intro. apply bounded8_no_seq; [assumption..|]. left. split; [lia|assumption]. }
  destruct (fitted_cases bs after Hne ltac:(lia) ltac:(lia)) as [c s rest E Hs D|t more E Ht D|D]; rewrite D; cbn [bind].
  - (* a valid sequence *)
    pose proof (seq_range _ _ Hs) as [Hr Hsur]. replace (c =? 0) with false by lia.
    pose proof (announced_range bs Hne) as Har. destruct (announced_seq c s rest Hs) as [Ea _]. rewrite <- E in Ea.
    assert (Eused : wrap32 (remaining (bs ++ after) + 1 - remaining (last s 0 :: rest ++ after)) = len s).
    { rewrite !remaining_len, len_cons, !len_app, E, len_app. rewrite wrap32_small; lia. }
    rewrite Eused, Ea, Z.eqb_refl. cbn [andb negb].
    rewrite charFlag_spec, pred_skip by lia.
    replace (range32 Utf8 c) with true by (unfold surrogate in Hsur; cbn [range32]; lia). cbn [negb orb].
    destruct (pred32 T pred c) eqn:Ep; cbn [negb].
    2:{ right. split.
        - intros [_ H]. rewrite E in H; apply (two_of_three_seq _ c s rest Hs) in H. unfold passes in H. destruct H; congruence.
        - apply answers_false_intro. intros H. rewrite E in H. apply (bounded8_seq _ c s rest Hs) in H. unfold passes in H. destruct H; congruence. }
    assert (Elen : len bs = len s + len rest) by (rewrite E; apply len_app).
    destruct (len bs <=? len s) eqn:Elast.
    + assert (rest = []) as -> by (apply len_zero; pose proof (len_pos rest); lia). right. split.
      * intros [_ H]. rewrite E in H; apply (two_of_three_seq _ c s [] Hs) in H. destruct H as [_ (cs & body & b' & x & E' & _)].
        destruct body; discriminate.
      * apply answers_true_intro. rewrite E. apply (bounded8_seq _ c s [] Hs). split; [exact Ep|apply bounded8_nil].
    + cbn [incr bind].
      assert (Hlr : 0 < len rest) by lia.
      assert (Hrne : rest <> []) by (intros ->; rewrite len_nil in Hlr; lia).
      replace (wrap32 (len bs - len s)) with (len rest) by (rewrite wrap32_small; lia).
      replace (remaining (last s 0 :: rest ++ after)) with (remaining (rest ++ after) + 1) by (rewrite !remaining_len, len_cons; lia).
      assert (Hby' : bytes (rest ++ after)).
      { rewrite E, <- app_assoc in Hby. apply bytes_app in Hby. tauto. }
      assert (Hn' : (length rest <= n)%nat).
      { rewrite E, app_length in Hn. pose proof (seq_ne _ _ Hs). destruct s; [congruence|cbn [length] in Hn; lia]. }
      destruct (IH rest fuel Hn' ltac:(lia) Hby' Hrne ltac:(pose proof (len_pos s); lia)) as [[[Ha H] Hu]|[Hno Hans]].
      * left. split; [|exact Hu]. split; [exact Ha|]. rewrite E. apply (two_of_three_seq _ c s rest Hs). split; [exact Ep|exact H].
      * right. split.
        -- intros [Ha H]. apply Hno. split; [exact Ha|]. rewrite E in H. now apply (two_of_three_seq _ c s rest Hs) in H.
        -- destruct Hans as (a & Ha & Hiff). exists a. split; [exact Ha|]. rewrite Hiff, E, (bounded8_seq _ c s rest Hs).
           unfold passes. tauto.
  - (* interrupted by a zero *)
    pose proof (no_seq_decode bs after _ _ D eq_refl) as Hns. cbn [Z.eqb deref bind]. right. split.
    + intros [Ha H]. apply two_of_three_no_seq in H; [|assumption]. destruct H as (b' & x & E' & Hx). exact (Hnot b' x Ha E' Hx).
    + apply answers_true_intro. apply bounded8_no_seq; [assumption..|]. right. exists t, more. auto.
  - pose proof (no_seq_decode bs after _ _ D eq_refl) as Hns. right. split.
    + intros [Ha H]. apply two_of_three_no_seq in H; [|assumption]. destruct H as (b' & x & E' & Hx). exact (Hnot b' x Ha E' Hx).
    + apply answers_false_intro. intros H. apply bounded8_no_seq in H; [|assumption..]. destruct H as [[H _]|(t & m & E' & Ht & _)].
      * lia.
      * rewrite E', <- app_assoc in D. cbn [app] in D. rewrite (decode_cut t (m ++ after) Ht) in D. discriminate.
Qed.

Lemma isUtf8_length_exact T pred bs after : bytes (bs ++ after) -> 0 < hd 0 bs -> len bs < 0x100000000 ->
  let res := isUtf8_length T (At (bs ++ after)) (len bs) pred in
  let over := after = [] /\ two_of_three (passes T pred) bs in
  (over /\ res = Undefined) \/ (~ over /\ answers Done res (bounded8 (passes T pred) bs)).
Proof.
  intros Hby Hhd Hlen. cbn zeta. destruct bs as [|b r] eqn:Ebs; [cbn in Hhd; lia|]. cbn [hd] in Hhd. rewrite <- Ebs in *.
  assert (E : isUtf8_length T (At (bs ++ after)) (len bs) pred =
    isUtf8_loop T pred (rangeFlagOf (code Utf8)) true (S (length (bs ++ after))) (bs ++ after) (remaining (bs ++ after) + 1) (len bs)).
  { unfold isUtf8_length, isUtf8_impl. change (badRange kUtf8) with false. change (rangeFlagOf kUtf8) with (rangeFlagOf (code Utf8)).
    replace (len bs =? 0) with false by (rewrite Ebs, len_cons; pose proof (len_pos r); lia).
    replace (deref (bs ++ after)) with (Done b) by (rewrite Ebs; reflexivity). cbn [bind negb].
    now replace (b =? 0) with false by lia. }
  rewrite E. apply (isUtf8_bounded_loop T pred after (length bs));
    [lia|rewrite app_length; lia|assumption|rewrite Ebs; discriminate|assumption].
Qed.

Lemma isUtf8_length_zero_first T pred after n : isUtf8_length T (At (0 :: after)) n pred = Done true.
Proof. unfold isUtf8_length, isUtf8_impl. reflexivity. Qed.

(* ---------------------------------------------------------------- unicodeLength(p, n) *)

Definition count_from (r : Z) (bs : list Z) (res : outcome Z) : Prop :=
  (exists v, res = Done v) /\
  (forall cs body tail, bs = body ++ tail -> utf8_text cs body -> Forall upto cs ->
     tail = [] \/ runs_out tail \/ starts_nothing tail -> res = Done (r + len cs)) /\
  (forall cs body tail, bs = body ++ tail -> utf8_text cs body -> Forall upto cs ->
     zero_inside tail -> announced tail <= len tail -> res = Done (wrap32 (r + len cs - 1))) /\
  ((forall cs body tail, bs = body ++ tail -> utf8_text cs body -> Forall upto cs ->
     ~ (tail = [] \/ runs_out tail \/ starts_nothing tail \/ zero_inside tail)) -> res = Done 0).

(* no sequence at the front: everything is decided by the bytes themselves *)
Lemma count_no_seq r bs res : (exists v, res = Done v) -> no_seq bs -> bs <> [] ->
  (runs_out bs \/ starts_nothing bs -> res = Done r) ->
  (zero_inside bs -> announced bs <= len bs -> res = Done (wrap32 (r - 1))) ->
  (~ runs_out bs -> ~ starts_nothing bs -> ~ zero_inside bs -> res = Done 0) ->
  count_from r bs res.
Proof.
  intros Hd Hn Hne H1 H2 H3. split; [exact Hd|]. split; [|split].
  - intros cs body tail E Hb _ Ht. destruct (text_front cs body tail bs Hb E Hn) as [-> ->]. cbn in E. subst tail.
    rewrite len_nil, Z.add_0_r. destruct Ht as [Ht|Ht]; [congruence|auto].
  - intros cs body tail E Hb _ Ht Ha. destruct (text_front cs body tail bs Hb E Hn) as [-> ->]. cbn in E. subst tail.
    rewrite len_nil, Z.add_0_r. auto.
  - intros H. specialize (H [] [] bs eq_refl text_nil (Forall_nil _)). apply H3; tauto.
Qed.

(* a sequence at the front *)
Lemma seq_not_nothing c s rest : utf8_seq c s -> ~ starts_nothing (s ++ rest).
Proof.
  intros Hs H. pose proof (lead_of_seq _ _ Hs) as Hl. pose proof (seq_range _ _ Hs) as [Hr _]. pose proof (seq_ne _ _ Hs).
  destruct s as [|b s]; [congruence|]. cbn [app starts_nothing hd] in *. lia.
Qed.
Lemma count_seq r c s rest res : utf8_seq c s -> upto c -> count_from (r + 1) rest res -> count_from r (s ++ rest) res.
Proof.
  intros Hs Hc (Hd & H1 & H2 & H3). destruct (seq_not_tail c s rest Hs) as [N1 N2]. pose proof (seq_not_nothing c s rest Hs) as N3.
  pose proof (seq_ne _ _ Hs) as Hne.
  split; [exact Hd|]. split; [|split].
  - intros cs body tail E Hb Hf Ht.
    destruct (text_front_seq cs body tail c s rest Hb E Hs) as [(-> & -> & ->)|(cs' & body' & -> & -> & Hb' & ->)].
    + exfalso. destruct Ht as [Ht|[Ht|Ht]]; [|tauto|tauto]. apply app_eq_nil in Ht. tauto.
    + apply Forall_cons_inv in Hf. rewrite (H1 cs' body' tail eq_refl Hb' (proj2 Hf) Ht), len_cons. f_equal. lia.
  - intros cs body tail E Hb Hf Ht Ha.
    destruct (text_front_seq cs body tail c s rest Hb E Hs) as [(-> & -> & ->)|(cs' & body' & -> & -> & Hb' & ->)]; [tauto|].
    apply Forall_cons_inv in Hf. rewrite (H2 cs' body' tail eq_refl Hb' (proj2 Hf) Ht Ha), len_cons. do 2 f_equal. lia.
  - intros H. apply H3. intros cs body tail -> Hb Hf. apply (H (c :: cs) (s ++ body) tail); [now rewrite app_assoc|now constructor|now constructor].
Qed.
Lemma count_seq_high r c s rest : utf8_seq c s -> ~ upto c -> count_from r (s ++ rest) (Done 0).
Proof.
  intros Hs Hc. destruct (seq_not_tail c s rest Hs) as [N1 N2]. pose proof (seq_not_nothing c s rest Hs) as N3.
  pose proof (seq_ne _ _ Hs) as Hne.
  split; [eauto|]. split; [|split; [|auto]].
  - intros cs body tail E Hb Hf Ht.
    destruct (text_front_seq cs body tail c s rest Hb E Hs) as [(-> & -> & ->)|(cs' & body' & -> & -> & Hb' & ->)].
    + exfalso. destruct Ht as [Ht|[Ht|Ht]]; [|tauto|tauto]. apply app_eq_nil in Ht. tauto.
    + apply Forall_cons_inv in Hf. tauto.
  - intros cs body tail E Hb Hf Ht Ha.
    destruct (text_front_seq cs body tail c s rest Hb E Hs) as [(-> & -> & ->)|(cs' & body' & -> & -> & Hb' & ->)]; [tauto|].
    apply Forall_cons_inv in Hf. tauto.
Qed.
Lemma count_nil r res : res = Done r -> count_from r [] res.
Proof.
  intros Hr. split; [eauto|]. split; [|split].
  - intros cs body tail E Hb _ _. symmetry in E. apply app_eq_nil in E. destruct E as [-> ->].
    apply reads_as_text, reads_as_nil_inv in Hb. subst cs. now rewrite len_nil, Z.add_0_r.
  - intros cs body tail E _ _ Ht _. symmetry in E. apply app_eq_nil in E. destruct E as [_ ->].
    apply zero_inside_lead in Ht. cbn in Ht. lia.
  - intros H. exfalso. apply (H [] [] [] eq_refl text_nil (Forall_nil _)). now left.
Qed.

Lemma starts_nothing_lead bs : bytes bs -> 0 < hd 0 bs -> starts_nothing bs <-> sequence_lead (hd 0 bs) = false.
Proof.
  destruct bs as [|b r]; cbn [starts_nothing hd]; [lia|]. intros Hb H. apply Forall_cons_inv in Hb. destruct Hb as [Hb _].
  unfold byte in Hb. unfold sequence_lead. lia.
Qed.

Lemma unicodeLength8_bounded_loop after n : forall bs fuel r, (length bs <= n)%nat -> (n < fuel)%nat ->
  bytes (bs ++ after) -> bs <> [] -> 0 <= r -> r + len bs < 0x100000000 ->
  let res := unicodeLength8_loop true fuel (bs ++ after) (remaining (bs ++ after) + 1) (len bs) r in
  let over := after = [] /\ two_of_three upto bs in
  (over /\ res = Undefined) \/ (~ over /\ count_from r bs res).
Proof.
  induction n as [|n IH]; intros bs fuel r0 Hn Hf Hby Hne Hr0 Hlen; (destruct fuel as [|fuel]; [lia|]).
  { destruct bs; [congruence|cbn in Hn; lia]. }
  cbn zeta. destruct bs as [|b r] eqn:Ebs; [congruence|]. rewrite <- Ebs in *.
  assert (Hhd : hd 0 bs = b) by (rewrite Ebs; reflexivity).
  assert (Hb : 0 <= b < 0x100) by (rewrite Ebs in Hby; apply Forall_cons_inv in Hby; exact (proj1 Hby)).
  assert (Hbb : bytes bs) by (apply bytes_app in Hby; tauto).
  assert (Ed : deref (bs ++ after) = Done b) by (rewrite Ebs; reflexivity).
  cbn [unicodeLength8_loop]. rewrite Ed. cbn [bind]. clear Ed.
  destruct (Z.eqb_spec b 0) as [Hz|Hz].
  { pose proof (no_seq_lead bs ltac:(right; lia)) as Hns. right. split.
    - intros [_ H]. apply two_of_three_no_seq in H; [|assumption]. destruct H as (b' & x & E & Hx). rewrite E in Hhd. cbn in Hhd. lia.
    - apply count_no_seq; [eexists; reflexivity|assumption..| | |reflexivity].
      + intros [H|H]; [apply runs_out_lead in H; [lia|assumption]|]. rewrite Ebs in H. cbn in H. lia.
      + intros H. apply zero_inside_lead in H. lia. }
  assert (Hpos : 0 < hd 0 bs) by lia.
  destruct (sequence_lead b) eqn:El.
  2:{ pose proof (no_seq_lead bs ltac:(left; now rewrite Hhd)) as Hns.
      assert (Hsn : starts_nothing bs) by (apply starts_nothing_lead; [assumption..|now rewrite Hhd]).
      match goal with |- context [lengthCheck _ b _ ?x ?y ?k] => assert (Eres : lengthCheck (bs ++ after) b (len bs) x y k = Done r0) end.
      { destruct (Z.eq_dec (len bs) 0xFFFFFFFF) as [Emax|Emax].
        - (* 2^32 - 1 bytes: the check passes, decodeUtf8 refuses, and nothing has been counted *)
          assert (r0 = 0) as -> by lia. rewrite Emax. unfold lengthCheck.
          assert (Eseq : wrap32 (sequenceSizeCharStarts b) = 0xFFFFFFFF).
          { unfold sequence_lead in El. unfold sequenceSizeCharStarts. replace (b =? 0) with false by lia.
            replace (b <=? 0x7f) with false by lia. destruct (b <=? 0xbf) eqn:E; [reflexivity|].
            replace (b <=? 0xdf) with false by lia. replace (b <=? 0xef) with false by lia. replace (b <=? 0xf7) with false by lia.
            replace (b <=? 0xfb) with false by lia. replace (b <=? 0xfd) with false by lia. reflexivity. }
          rewrite Eseq. cbn [Z.eqb Pos.eqb]. change (0xFFFFFFFF >? 0xFFFFFFFF) with false. cbn match beta.
          replace (decodeUtf8 (bs ++ after)) with (Done (0, Null)); [reflexivity|].
          rewrite Ebs. unfold decodeUtf8. cbn [app deref bind]. unfold sequence_lead in El.
          replace (b <=? 0x7f) with false by lia. destruct (b <=? 0xbf) eqn:E; [reflexivity|].
          replace (b <=? 0xdf) with false by lia. replace (b <=? 0xef) with false by lia. replace (b <=? 0xf7) with false by lia.
          replace (b <=? 0xfb) with false by lia. replace (b <=? 0xfd) with false by lia. reflexivity.
        - apply lengthCheck_no_lead; [lia|assumption|lia]. }
      rewrite Eres. right. split.
      - intros [_ H]. apply two_of_three_no_seq in H; [|assumption]. destruct H as (b' & x & E & Hx). rewrite E in Hhd. cbn in Hhd.
        unfold sequence_lead in El. lia.
      - apply count_no_seq; [eexists; reflexivity|assumption..|reflexivity| |tauto].
        intros H. apply zero_inside_lead in H. unfold sequence_lead in El. lia. }
  assert (Hnn : ~ starts_nothing bs) by (rewrite starts_nothing_lead, Hhd by assumption; congruence).
  assert (Hcase : (after = [] /\ exists x, bs = [b; x] /\ 0xE0 <= b <= 0xEF) \/
                  (2 < len bs \/ after <> [] \/ ~ (0xE0 <= hd 0 bs <= 0xEF) \/ len bs < 2)).
  { destruct after as [|a after]; [|right; right; left; discriminate].
    destruct r as [|x [|y r]]; rewrite Ebs; unfold len; cbn [length hd]; [lia| |lia].
    destruct (Z_le_dec 0xE0 b), (Z_le_dec b 0xEF); [left; eauto|lia|lia|lia]. }
  destruct Hcase as [(-> & x & E & Hx)|Hsafe].
  { left. rewrite E. split; [split; [reflexivity|]|].
    - exists [], [], b, x. repeat split; [constructor|constructor|lia|lia].
    - cbn [app]. change (len [b; x]) with 2. apply lengthCheck_over. lia. }
  match goal with |- context [lengthCheck _ b _ ?x ?y ?k] =>
    replace (lengthCheck (bs ++ after) b (len bs) x y k) with
      (if low_start_b bs then Done x else if len bs <? announced bs then Done y else k (announced bs))
      by (rewrite <- Hhd; symmetry; apply lengthCheck_spec; first [assumption | rewrite Hhd; first [assumption | lia]])
  end.
  assert (Hnot : forall b' x, after = [] -> bs = [b'; x] -> ~ (0xE0 <= b' <= 0xEF)).
  { intros b' x Ha E Hx. rewrite E in Hhd. cbn in Hhd. subst b'. rewrite E in Hsafe. unfold len in Hsafe; cbn [length hd] in Hsafe.
    destruct Hsafe as [H|[H|[H|H]]]; [lia|congruence|lia|lia]. }
  destruct (low_start_b bs) eqn:Elow.
  { apply low_start_dec in Elow. pose proof (no_seq_low bs Elow) as Hns. right. split.
    - intros [Ha H]. apply two_of_three_no_seq in H; [|assumption]. destruct H as (b' & x & E & Hx). exact (Hnot b' x Ha E Hx).
    - apply count_no_seq; [eexists; reflexivity|assumption..| | |reflexivity].
      + intros [[_ H]|H]; tauto.
      + intros (t & m & _ & _ & H). tauto. }
  assert (Hlow : ~ low_start bs) by (intros H; apply low_start_dec in H; congruence).
  destruct (len bs <? announced bs) eqn:Eroom.
  { pose proof (no_seq_short bs ltac:(lia)) as Hns. right. split.
    - intros [Ha H]. apply two_of_three_no_seq in H; [|assumption]. destruct H as (b' & x & E & Hx). exact (Hnot b' x Ha E Hx).
    - apply count_no_seq; [eexists; reflexivity|assumption..|reflexivity|lia|]. intros H. exfalso. apply H. split; [lia|assumption]. }
  destruct (fitted_cases bs after Hne ltac:(lia) ltac:(lia)) as [c s rest E Hs D|t more E Ht D|D]; rewrite D; cbn [bind].
  - pose proof (seq_range _ _ Hs) as [Hr Hsur]. rewrite unicodeFlag_spec by assumption.
    destruct (c <=? 0x10FFFF) eqn:Ec; cbn [negb].
    2:{ right. split.
        - intros [_ H]. rewrite E in H. apply (two_of_three_seq _ c s rest Hs) in H. unfold upto in H. lia.
        - rewrite E. apply (count_seq_high _ c); [assumption|unfold upto; lia]. }
    assert (Hup : upto c) by (unfold upto; lia).
    replace (c =? 0) with false by lia.
    pose proof (announced_range bs Hne) as Har. destruct (announced_seq c s rest Hs) as [Ea _]. rewrite <- E in Ea.
    assert (Eused : wrap32 (remaining (bs ++ after) + 1 - remaining (last s 0 :: rest ++ after)) = len s).
    { rewrite !remaining_len, len_cons, !len_app, E, len_app. rewrite wrap32_small; lia. }
    rewrite Eused. cbn [andb].
    assert (Elen : len bs = len s + len rest) by (rewrite E; apply len_app).
    rewrite (wrap32_small (r0 + 1)) by (pose proof (len_pos rest); lia).
    destruct (len bs =? len s) eqn:Elast.
    + assert (rest = []) as -> by (apply len_zero; pose proof (len_pos rest); lia). right. split.
      * intros [_ H]. rewrite E in H. apply (two_of_three_seq _ c s [] Hs) in H. destruct H as [_ (cs & body & b' & x & E' & _)].
        destruct body; discriminate.
      * rewrite E. apply (count_seq _ c); [assumption..|]. now apply count_nil.
    + cbn [incr bind]. pose proof (len_pos rest).
      assert (Hlr : 0 < len rest) by lia.
      assert (Hrne : rest <> []) by (intros ->; rewrite len_nil in Hlr; lia).
      replace (wrap32 (len bs - len s)) with (len rest) by (rewrite wrap32_small; lia).
      replace (remaining (last s 0 :: rest ++ after)) with (remaining (rest ++ after) + 1) by (rewrite !remaining_len, len_cons; lia).
      assert (Hby' : bytes (rest ++ after)).
      { rewrite E, <- app_assoc in Hby. apply bytes_app in Hby. tauto. }
      assert (Hn' : (length rest <= n)%nat).
      { rewrite E, app_length in Hn. pose proof (seq_ne _ _ Hs). destruct s; [congruence|cbn [length] in Hn; lia]. }
      destruct (IH rest fuel (r0 + 1) Hn' ltac:(lia) Hby' Hrne ltac:(lia) ltac:(lia)) as [[[Ha H'] Hu]|[Hno Hans]].
      * left. split; [|exact Hu]. split; [exact Ha|]. rewrite E. apply (two_of_three_seq _ c s rest Hs). split; assumption.
      * right. split.
        -- intros [Ha H']. apply Hno. split; [exact Ha|]. rewrite E in H'. now apply (two_of_three_seq _ c s rest Hs) in H'.
        -- rewrite E. now apply (count_seq _ c).
  - pose proof (no_seq_decode bs after _ _ D eq_refl) as Hns.
    change (Z.land (rangeFlagOf kUnicode) (getCharEncodableRangeFlags 0) =? 0) with false. cbn [Z.eqb deref bind]. right. split.
    + intros [Ha H]. apply two_of_three_no_seq in H; [|assumption]. destruct H as (b' & x & E' & Hx). exact (Hnot b' x Ha E' Hx).
    + apply count_no_seq; [eexists; reflexivity|assumption..| |reflexivity|].
      * intros [[H _]|H]; [lia|tauto].
      * intros _ _ H. exfalso. apply H. exists t, more. auto.
  - pose proof (no_seq_decode bs after _ _ D eq_refl) as Hns. right. split.
    + intros [Ha H]. apply two_of_three_no_seq in H; [|assumption]. destruct H as (b' & x & E' & Hx). exact (Hnot b' x Ha E' Hx).
    + apply count_no_seq; [eexists; reflexivity|assumption..| | |reflexivity].
      * intros [[H _]|H]; [lia|tauto].
      * intros (t & m & E' & Ht & _) _. rewrite E', <- app_assoc in D. cbn [app] in D. rewrite (decode_cut t (m ++ after) Ht) in D. discriminate.
Qed.

Lemma unicodeLength8_bounded bs after : bytes (bs ++ after) -> 0 < hd 0 bs -> len bs < 0x100000000 ->
  let res := unicodeLength8 (At (bs ++ after)) (len bs) in
  let over := after = [] /\ two_of_three upto bs in
  (over /\ res = Undefined) \/ (~ over /\ bounded_count8 bs (fun v => res = Done v)).
Proof.
  intros Hby Hhd Hlen. cbn zeta. destruct bs as [|b r] eqn:Ebs; [cbn in Hhd; lia|]. cbn [hd] in Hhd. rewrite <- Ebs in *.
  assert (E : unicodeLength8 (At (bs ++ after)) (len bs) =
    unicodeLength8_loop true (S (length (bs ++ after))) (bs ++ after) (remaining (bs ++ after) + 1) (len bs) 0).
  { unfold unicodeLength8.
    replace (len bs =? 0) with false by (rewrite Ebs, len_cons; pose proof (len_pos r); lia).
    replace (deref (bs ++ after)) with (Done b) by (rewrite Ebs; reflexivity). cbn [bind negb].
    now replace (b =? 0) with false by lia. }
  rewrite E. apply (unicodeLength8_bounded_loop after (length bs));
    [lia|rewrite app_length; lia|assumption|rewrite Ebs; discriminate|lia|lia].
Qed.
Lemma unicodeLength8_zero_first after n : unicodeLength8 (At (0 :: after)) n = Done 0.
Proof. reflexivity. Qed.
