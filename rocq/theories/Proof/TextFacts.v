(* Facts about well-formed texts: unique reading, step lemma for the scanning loops. *)
From Coq Require Import ZArith List Bool Lia ZifyBool.
From Verif Require Import Machine.
From Verif.Model Require Import Internal Decode.
From Verif.Spec Require Import Utf.
From Verif.Proof Require Import Bits Encode DecodeFacts.
Import ListNotations.
Local Open Scope Z_scope.

Lemma shape_text8 c s : shape c s -> c <> 0 -> text8 s.
Proof. intros H Hc. inversion H; subst s; repeat constructor; lia. Qed.

Lemma utf8_bytes_text8 c : 0 < c < 0x80000000 -> text8 (utf8_bytes c).
Proof. intros H. apply (shape_text8 c); [apply utf8_bytes_shape|]; lia. Qed.

Lemma text8_app a b : text8 (a ++ b) <-> text8 a /\ text8 b.
Proof. apply Forall_app. Qed.

Lemma seq_text8 c s : utf8_seq c s -> text8 s.
Proof.
  intros H. destruct H as [c [Hr Hn]|c Hc]; [apply utf8_bytes_text8; lia|].
  destruct (utf16_units_supp c Hc) as (h & l & E & Hh & Hl & Ec). rewrite E.
  cbn [flat_map]. rewrite app_nil_r. apply text8_app.
  unfold high_surrogate, low_surrogate in *. split; apply utf8_bytes_text8; lia.
Qed.

Lemma seq_ne c s : utf8_seq c s -> s <> [].
Proof.
  intros H. destruct H as [c [Hr Hn]|c Hc]; [apply utf8_bytes_ne|].
  destruct (utf16_units_supp c Hc) as (h & l & E & _). rewrite E. cbn [flat_map].
  pose proof (utf8_bytes_ne h). destruct (utf8_bytes h); [congruence|discriminate].
Qed.

Lemma seq_range c s : utf8_seq c s -> encodable8 c.
Proof. intros H. destruct H as [c H|c Hc]; [exact H|]. unfold encodable8, surrogate. lia. Qed.

Lemma cut_text8 t : cut_short t -> text8 t.
Proof.
  intros H. destruct H as [b n conts0 Hl _ Hc|a b Ha Hb|a b x conts0 Ha Hb Hx _ Hc];
    unfold text8, lead, continuation in *; repeat (constructor; try lia);
    eapply Forall_impl; try exact Hc; cbn; lia.
Qed.

Lemma cut_ne t : cut_short t -> t <> [].
Proof. intros H; inversion H; discriminate. Qed.

Lemma text8_no_zero bs : text8 bs -> ~ In 0 bs.
Proof. unfold text8. rewrite Forall_forall. intros H Hi. apply H in Hi. lia. Qed.

(* prefixes without zeros of a NUL-terminated array lie before the zero *)
Lemma split_before_zero bs : forall s junk rest, ~ In 0 s -> bs ++ 0 :: junk = s ++ rest ->
  exists m, bs = s ++ m /\ rest = m ++ 0 :: junk.
Proof.
  induction bs as [|b bs IH]; intros s junk rest Hs E; cbn [app] in E.
  - destruct s as [|x s]; cbn [app] in E; [exists []; auto|].
    injection E as E _. subst x. exfalso. apply Hs. now left.
  - destruct s as [|x s]; cbn [app] in E; [exists (b :: bs); auto|].
    injection E as -> E. destruct (IH s junk rest) as (m & -> & ->); [intros Hi; apply Hs; now right|exact E|].
    exists m; auto.
Qed.

Lemma zero_split bs t junk junk' : ~ In 0 bs -> ~ In 0 t -> bs ++ 0 :: junk = t ++ 0 :: junk' ->
  bs = t /\ junk = junk'.
Proof.
  intros Hb Ht E. destruct (split_before_zero _ _ _ _ Ht E) as (m & -> & E2).
  destruct m as [|x m]; cbn [app] in E2.
  - injection E2 as ->. rewrite app_nil_r. auto.
  - injection E2 as <- _. exfalso. apply Hb. apply in_or_app. right. now left.
Qed.

(* a byte string starts with at most one valid sequence *)
Lemma seq_unique c s rest c' s' rest' : utf8_seq c s -> utf8_seq c' s' -> s ++ rest = s' ++ rest' ->
  c = c' /\ s = s' /\ rest = rest'.
Proof.
  intros H H' E.
  pose proof (decode_valid c s rest H) as D. pose proof (decode_valid c' s' rest' H') as D'.
  rewrite E, D' in D. injection D as -> _ ->. split; [auto|].
  apply app_inv_tail in E. auto.
Qed.

Lemma cut_no_seq t c s rest : cut_short t -> utf8_seq c s -> t <> s ++ rest.
Proof.
  intros Ht Hs E. pose proof (decode_cut_end t Ht) as D. rewrite E, (decode_valid c s rest Hs) in D.
  discriminate.
Qed.

Lemma utf8_text_inv cs bs : utf8_text cs bs -> (cs = [] /\ bs = []) \/
  exists c s cs' bs', cs = c :: cs' /\ bs = s ++ bs' /\ utf8_seq c s /\ utf8_text cs' bs'.
Proof. intros H. destruct H; [left; auto|]. right. eauto 10. Qed.

Lemma utf8_text_app cs1 bs1 cs2 bs2 : utf8_text cs1 bs1 -> utf8_text cs2 bs2 ->
  utf8_text (cs1 ++ cs2) (bs1 ++ bs2).
Proof.
  intros H1 H2. induction H1 as [|c s cs bs Hs Ht IH]; [exact H2|].
  cbn [app]. rewrite <- app_assoc. constructor; assumption.
Qed.

Lemma utf8_text_text8 cs bs : utf8_text cs bs -> text8 bs.
Proof.
  induction 1 as [|c s cs bs Hs Ht IH]; [constructor|]. apply text8_app. split; [|exact IH].
  eapply seq_text8; eassumption.
Qed.

Lemma utf8_text_range cs bs : utf8_text cs bs -> Forall encodable8 cs.
Proof. induction 1; constructor; eauto using seq_range. Qed.

Lemma reads_as_range cs bs : reads_as cs bs -> Forall encodable8 cs.
Proof. intros (b & t & _ & H & _). eapply utf8_text_range; eassumption. Qed.

Lemma reads_as_nil : reads_as [] [].
Proof. exists [], []. repeat split; [constructor|now left]. Qed.
Lemma reads_as_cut t : cut_short t -> reads_as [] t.
Proof. intros H. exists [], t. repeat split; [constructor|now right]. Qed.
Lemma reads_as_cons c s cs rest : utf8_seq c s -> reads_as cs rest -> reads_as (c :: cs) (s ++ rest).
Proof.
  intros Hs (b & t & -> & Hb & Ht). exists (s ++ b), t. split; [apply app_assoc|].
  split; [constructor; assumption|exact Ht].
Qed.
Lemma reads_as_text cs bs : utf8_text cs bs -> reads_as cs bs.
Proof. intros H. exists bs, []. rewrite app_nil_r. auto. Qed.
Lemma reads_as_app cs1 bs1 cs2 bs2 : utf8_text cs1 bs1 -> reads_as cs2 bs2 ->
  reads_as (cs1 ++ cs2) (bs1 ++ bs2).
Proof.
  intros H1 H2. induction H1 as [|c s cs bs Hs Ht IH]; [exact H2|].
  cbn [app]. rewrite <- app_assoc. apply reads_as_cons; assumption.
Qed.

Lemma reads_as_inv cs bs : reads_as cs bs ->
  (cs = [] /\ (bs = [] \/ cut_short bs)) \/
  exists c s cs' rest, cs = c :: cs' /\ bs = s ++ rest /\ utf8_seq c s /\ reads_as cs' rest.
Proof.
  intros (b & t & -> & Hb & Ht). apply utf8_text_inv in Hb.
  destruct Hb as [[-> ->]|(c & s & cs' & bs' & -> & -> & Hs & Hb')].
  - left. auto.
  - right. exists c, s, cs', (bs' ++ t). rewrite app_assoc. repeat split; auto. exists bs', t. auto.
Qed.

Lemma reads_as_seq_inv c s cs rest : utf8_seq c s -> reads_as cs (s ++ rest) ->
  exists cs', cs = c :: cs' /\ reads_as cs' rest.
Proof.
  intros Hs H. apply reads_as_inv in H.
  destruct H as [[_ [E|Hc]]|(c' & s' & cs' & rest' & -> & E & Hs' & Hr)].
  - apply app_eq_nil in E. destruct E as [E _]. apply seq_ne in Hs. congruence.
  - exfalso. eapply cut_no_seq; [exact Hc|exact Hs|reflexivity].
  - destruct (seq_unique _ _ _ _ _ _ Hs Hs' E) as (-> & -> & ->). eauto.
Qed.

Lemma reads_as_cut_inv t cs : cut_short t -> reads_as cs t -> cs = [].
Proof.
  intros Ht H. apply reads_as_inv in H. destruct H as [[-> _]|(c & s & cs' & rest & _ & E & Hs & _)]; [reflexivity|].
  exfalso. eapply cut_no_seq; eassumption.
Qed.

Lemma reads_as_nil_inv cs : reads_as cs [] -> cs = [].
Proof.
  intros H. apply reads_as_inv in H. destruct H as [[-> _]|(c & s & cs' & rest & _ & E & Hs & _)]; [reflexivity|].
  symmetry in E. apply app_eq_nil in E. destruct E as [-> _]. now apply seq_ne in Hs.
Qed.

(* a byte string reads in at most one way *)
Lemma reads_as_unique_aux n : forall bs cs cs', (length bs <= n)%nat -> reads_as cs bs -> reads_as cs' bs -> cs = cs'.
Proof.
  induction n as [|n IH]; intros bs cs cs' Hn H H'.
  - destruct bs; [|cbn in Hn; lia]. apply reads_as_nil_inv in H, H'. congruence.
  - pose proof H as H0. apply reads_as_inv in H.
    destruct H as [[-> [->|Hc]]|(c & s & cs1 & rest & -> & -> & Hs & Hr)].
    + apply reads_as_nil_inv in H'. congruence.
    + symmetry. eapply reads_as_cut_inv; eassumption.
    + destruct (reads_as_seq_inv _ _ _ _ Hs H') as (cs2 & -> & Hr2). f_equal.
      eapply IH; [|exact Hr|exact Hr2].
      rewrite app_length in Hn. pose proof (seq_ne _ _ Hs). destruct s; [congruence|cbn [length] in Hn; lia].
Qed.
Lemma reads_as_unique bs cs cs' : reads_as cs bs -> reads_as cs' bs -> cs = cs'.
Proof. apply (reads_as_unique_aux (length bs)). lia. Qed.
Lemma utf8_text_unique bs cs cs' : utf8_text cs bs -> utf8_text cs' bs -> cs = cs'.
Proof. intros H H'. eapply reads_as_unique; apply reads_as_text; eassumption. Qed.

(* one iteration of a scanning loop at a non-empty NUL-free suffix *)
Inductive scan (bs junk : list Z) : Prop :=
| scan_seq c s rest : bs = s ++ rest -> utf8_seq c s ->
    decodeUtf8 (bs ++ 0 :: junk) = Done (c, At (last s 0 :: rest ++ 0 :: junk)) -> scan bs junk
| scan_cut : cut_short bs -> decodeUtf8 (bs ++ 0 :: junk) = Done (0, At (0 :: junk)) -> scan bs junk
| scan_bad : (forall cs, ~ reads_as cs bs) -> decodeUtf8 (bs ++ 0 :: junk) = Done (0, Null) -> scan bs junk.

Lemma scan_cases bs junk : text8 bs -> bs <> [] -> scan bs junk.
Proof.
  intros Hb Hne.
  assert (Hhd : 0 <= hd 0 (bs ++ 0 :: junk)).
  { destruct bs; [congruence|]. cbn. apply Forall_cons_inv in Hb. lia. }
  pose proof (decodeUtf8_cases _ Hhd) as D.
  remember (bs ++ 0 :: junk) as p eqn:Ep. remember (decodeUtf8 p) as r eqn:Er.
  destruct D as [c s rest E Hs|rest E|t junk' E Ht| |Hend].
  - rewrite Ep in E. destruct (split_before_zero _ _ _ _ (text8_no_zero _ (seq_text8 _ _ Hs)) E) as (m & Em & ->).
    eapply scan_seq; [exact Em|exact Hs|]. rewrite <- Ep. auto.
  - exfalso. rewrite Ep in E. destruct bs; [congruence|]. injection E as -> _.
    apply Forall_cons_inv in Hb. lia.
  - rewrite Ep in E. apply zero_split in E; [|apply text8_no_zero; assumption|apply text8_no_zero, cut_text8; assumption].
    destruct E as [-> ->]. apply scan_cut; [exact Ht|]. rewrite <- Ep. auto.
  - apply scan_bad; [|rewrite <- Ep; auto]. intros cs H. apply reads_as_inv in H.
    destruct H as [[-> [->|Hc]]|(c & s & cs1 & rest & -> & -> & Hs & Hr)].
    + congruence.
    + rewrite Ep, decode_cut in Er by assumption. discriminate.
    + rewrite Ep, <- app_assoc, (decode_valid c) in Er by assumption. discriminate.
  - exfalso. destruct Hend as [->|Hc]; [destruct bs; discriminate|].
    apply cut_text8 in Hc. rewrite Ep in Hc. apply text8_app in Hc. destruct Hc as [_ Hc].
    apply Forall_cons_inv in Hc. lia.
Qed.

(* cut-short sequences cover the completable ones *)
Lemma reads_as_dec_aux n : forall bs, (length bs <= n)%nat -> text8 bs ->
  (exists cs, reads_as cs bs) \/ (forall cs, ~ reads_as cs bs).
Proof.
  induction n as [|n IH]; intros bs Hn Hb.
  - destruct bs; [|cbn in Hn; lia]. left. exists []. apply reads_as_nil.
  - destruct bs as [|b bs]; [left; exists []; apply reads_as_nil|].
    destruct (scan_cases (b :: bs) [] Hb ltac:(discriminate)) as [c s rest E Hs _|Hc _|Hbad _].
    + rewrite E in *. rewrite app_length in Hn. pose proof (seq_ne _ _ Hs).
      apply text8_app in Hb. destruct (IH rest) as [[cs Hcs]|Hno].
      * destruct s; [congruence|cbn [length] in Hn; lia].
      * tauto.
      * left. exists (c :: cs). now apply reads_as_cons.
      * right. intros cs H1. destruct (reads_as_seq_inv _ _ _ _ Hs H1) as (cs' & _ & H2). exact (Hno _ H2).
    + left. exists []. now apply reads_as_cut.
    + right. exact Hbad.
Qed.
Lemma reads_as_dec bs : text8 bs -> (exists cs, reads_as cs bs) \/ (forall cs, ~ reads_as cs bs).
Proof. apply (reads_as_dec_aux (length bs)). lia. Qed.
