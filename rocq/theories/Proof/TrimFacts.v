(* trim and its variants *)
From Coq Require Import ZArith List Bool Lia ZifyBool.
From Verif Require Import Machine.
From Verif.Model Require Import Tables SplitJoin Str Trim.
From Verif.Spec Require Import Utf Result Text Ucd Chain Bounded.
From Verif.Proof Require Import Bits Encode DecodeFacts TextFacts ToFuncs IsFuncs Lenient Round Consequences Calls SplitFacts BoundedStep
  Bounded16 Witness Sweep.
From Verif.Proof Require Import Classes.
Import ListNotations.
Local Open Scope Z_scope.

(* ---------------------------------------------------------------- the loops *)

Lemma trim_front_spec b s : exists f, s = f ++ trim_front b s /\ Forall (fun x => b x = true) f /\
  (trim_front b s = [] \/ exists x t, trim_front b s = x :: t /\ b x = false).
Proof.
  induction s as [|x s (f & E & Hf & Ht)]; cbn [trim_front].
  - exists []. split; [reflexivity|]. split; [constructor|now left].
  - destruct (b x) eqn:Ex.
    + exists (x :: f). split; [cbn; now rewrite <- E|]. split; [now constructor|assumption].
    + exists []. split; [reflexivity|]. split; [constructor|]. right. eauto.
Qed.
Lemma trim_back_spec b n : forall s fuel, (length s <= n)%nat -> (n < fuel)%nat -> exists r f,
  trim_back b fuel s = Done r /\ s = r ++ f /\ Forall (fun x => b x = true) f /\
  (r = [] \/ exists t x, r = t ++ [x] /\ b x = false).
Proof.
  induction n as [|n IH]; intros s fuel Hn Hf; (destruct fuel as [|fuel]; [lia|]).
  - destruct s; [|cbn in Hn; lia]. exists [], []. cbn. auto.
  - destruct s as [|y s] using rev_ind; [exists [], []; cbn; auto|]. clear IHs.
    cbn [trim_back]. rewrite last_last, removelast_last.
    destruct (s ++ [y]) as [|a l] eqn:El; [destruct s; discriminate|]. rewrite <- El in *. clear El a l.
    destruct (b y) eqn:Ey.
    + rewrite app_length in Hn. cbn in Hn. destruct (IH s fuel ltac:(lia) ltac:(lia)) as (r & f & E & -> & Hb & Ht).
      exists r, (f ++ [y]). split; [exact E|]. split; [now rewrite app_assoc|]. split; [|assumption].
      apply Forall_app. split; [assumption|now constructor].
    + exists (s ++ [y]), []. split; [reflexivity|]. split; [now rewrite app_nil_r|]. split; [constructor|]. right. eauto.
Qed.

Definition trim_with (b : Z -> bool) (s : list Z) : outcome (list Z) :=
  do v <- trim_back b (S (length s)) s; Done (trim_front b v).
Lemma trim_with_spec b (P : Z -> Prop) s : (forall x, b x = true <-> P x) -> exists r, trim_with b s = Done r /\ trimmed P s r.
Proof.
  intros HP. destruct (trim_back_spec b (length s) s (S (length s)) ltac:(lia) ltac:(lia)) as (v & back & E & Es & Hb & Hv).
  unfold trim_with. rewrite E. cbn [bind]. destruct (trim_front_spec b v) as (front & Ev & Hf & Ht).
  exists (trim_front b v). split; [reflexivity|]. exists front, back. split; [now rewrite app_assoc, <- Ev|].
  split; [eapply Forall_impl; [|exact Hf]; intros x; apply HP|]. split; [eapply Forall_impl; [|exact Hb]; intros x; apply HP|].
  destruct Ht as [Ht|(x & t & Ht & Hx)]; [now left|right].
  assert (Hneg : forall y, b y = false -> ~ P y) by (intros y Hy H; apply HP in H; congruence).
  split; [exists x, t; auto|].
  destruct Hv as [->|(t' & y & -> & Hy)]; [discriminate|].
  (* v = t' ++ [y] = front ++ x :: t, so its last element is y *)
  rewrite Ht in Ev. rewrite Ht. clear E Es Ht.
  destruct t as [|z t] using rev_ind.
  - apply app_inj_tail in Ev. destruct Ev as [_ ->]. exists [], x. auto.
  - clear IHt. rewrite app_comm_cons, app_assoc in Ev. apply app_inj_tail in Ev. destruct Ev as [_ ->].
    exists (x :: t), z. auto.
Qed.

(* ---------------------------------------------------------------- the result is determined *)

Lemma trimmed_blank P s : Forall P s -> trimmed P s [].
Proof. intros H. exists s, []. rewrite app_nil_r. split; [reflexivity|]. split; [assumption|]. split; [constructor|now left]. Qed.

Lemma front_unique (P : Z -> Prop) a a' x x' t t' : Forall P a -> Forall P a' -> ~ P x -> ~ P x' ->
  a ++ x :: t = a' ++ x' :: t' -> a = a' /\ x :: t = x' :: t'.
Proof.
  revert a'. induction a as [|y a IH]; intros a' Ha Ha' Hx Hx' E.
  - destruct a' as [|y' a']; [auto|]. cbn in E. injection E as -> _. inversion Ha'; contradiction.
  - inversion Ha; subst. destruct a' as [|y' a']; cbn in E; injection E as -> E; [contradiction|].
    inversion Ha'; subst. destruct (IH a') as [-> E']; auto.
Qed.
Lemma back_unique (P : Z -> Prop) t t' x x' b b' : Forall P b -> Forall P b' -> ~ P x -> ~ P x' ->
  (t ++ [x]) ++ b = (t' ++ [x']) ++ b' -> t ++ [x] = t' ++ [x'].
Proof.
  intros Hb Hb' Hx Hx' E. apply (f_equal (@rev Z)) in E. rewrite !rev_app_distr in E. cbn [rev app] in E.
  apply (front_unique P) in E; [|now apply Forall_rev|now apply Forall_rev|assumption|assumption].
  destruct E as [_ E]. apply (f_equal (@rev Z)) in E. cbn [rev] in E. now rewrite !rev_involutive in E.
Qed.
Lemma trimmed_unique P s r r' : trimmed P s r -> trimmed P s r' -> r = r'.
Proof.
  intros (f & b & E & Hf & Hb & Hr) (f' & b' & E' & Hf' & Hb' & Hr').
  assert (Hno : forall f b f' b' x t, s = f ++ [] ++ b -> Forall P f -> Forall P b -> s = f' ++ (x :: t) ++ b' -> ~ P x -> False).
  { intros f0 b0 f0' b0' x t E0 Hf0 Hb0 E0' Hx. assert (HP : Forall P s) by (rewrite E0; cbn; apply Forall_app; auto).
    rewrite E0' in HP. apply Forall_app in HP. destruct HP as [_ HP]. cbn in HP. inversion HP; contradiction. }
  destruct Hr as [->|[(x & t & -> & Hx) (u & y & Eu & Hy)]], Hr' as [->|[(x' & t' & -> & Hx') (u' & y' & Eu' & Hy')]]; [reflexivity| | |].
  - exfalso. exact (Hno _ _ _ _ _ _ E Hf Hb E' Hx').
  - exfalso. exact (Hno _ _ _ _ _ _ E' Hf' Hb' E Hx).
  - assert (E2 : f ++ x :: (t ++ b) = f' ++ x' :: (t' ++ b')) by (change (f ++ (x :: t) ++ b = f' ++ (x' :: t') ++ b'); congruence).
    destruct (front_unique P _ _ _ _ _ _ Hf Hf' Hx Hx' E2) as [-> E3].
    change ((x :: t) ++ b = (x' :: t') ++ b') in E3. rewrite Eu, Eu' in E3.
    apply (back_unique P) in E3; auto. now rewrite Eu, Eu'.
Qed.
Lemma trimmed_again P s r : trimmed P s r -> trimmed P r r.
Proof.
  intros (f & b & _ & _ & _ & Hr). exists [], []. rewrite app_nil_r. split; [reflexivity|]. split; [constructor|]. split; [constructor|exact Hr].
Qed.
Lemma trimmed_iff (P Q : Z -> Prop) s r : (forall x, P x <-> Q x) -> trimmed P s r -> trimmed Q s r.
Proof.
  intros H (f & b & E & Hf & Hb & Hr). exists f, b. split; [assumption|].
  split; [eapply Forall_impl; [|exact Hf]; apply H|]. split; [eapply Forall_impl; [|exact Hb]; apply H|].
  destruct Hr as [Hr|[(x & t & E1 & Hx) (u & y & E2 & Hy)]]; [now left|right].
  split; [exists x, t; rewrite <- H; auto|exists u, y; rewrite <- H; auto].
Qed.

(* ---------------------------------------------------------------- the variants *)

Lemma in_find l x : (match find l x with Some _ => true | None => false end) = true <-> In x l.
Proof.
  pose proof (find_spec l x) as H. destruct (find l x) as [n|].
  - destruct H as (a & b & -> & _). split; [|reflexivity]. intros _. apply in_or_app. right. now left.
  - split; [discriminate|contradiction].
Qed.

Lemma trim_trims s : exists r, trim s = Done r /\ trimmed (fun c => c = 0x20) s r.
Proof. apply (trim_with_spec (fun x => x =? 0x20)). intros x. lia. Qed.
Lemma trim_set_trims s l : exists r, trim_set s l = Done r /\ trimmed (fun c => In c l) s r.
Proof. apply (trim_with_spec (fun x => match find l x with Some _ => true | None => false end)). intros x. apply in_find. Qed.
Lemma trim_ascii_trims s : exists r, trimAscii7WhiteSpace s = Done r /\ trimmed ascii_blank s r.
Proof.
  destruct (trim_set_trims s [0x09; 0x0a; 0x0d; 0x20]) as (r & E & H). exists r. split; [exact E|]. eapply trimmed_iff; [|exact H].
  intros x. cbn [In]. unfold ascii_blank. intuition congruence.
Qed.
Lemma whiteSpaces_spec x : In x whiteSpaces <-> wide_blank x.
Proof. unfold whiteSpaces, wide_blank, ascii_blank. cbn [In]. lia. Qed.
Lemma trim_32_trims s : exists r, trimWhiteSpace_32 s = Done r /\ trimmed wide_blank s r.
Proof.
  destruct (trim_set_trims s whiteSpaces) as (r & E & H). exists r. split; [exact E|]. eapply trimmed_iff; [|exact H]. exact whiteSpaces_spec.
Qed.
Lemma trim_16_trims s : exists r, trimWhiteSpace_16 s = Done r /\ trimmed wide_blank s r.
Proof. exact (trim_32_trims s). Qed.

(* twice is once *)
Lemma twice f P : (forall s, exists r, f s = Done r /\ trimmed P s r) -> forall s, exists r : list Z, f s = Done r /\ f r = Done r.
Proof.
  intros H s. destruct (H s) as (r & E & Ht). exists r. split; [exact E|]. destruct (H r) as (r' & E' & Ht').
  rewrite E'. f_equal. exact (trimmed_unique _ _ _ _ Ht' (trimmed_again _ _ _ Ht)).
Qed.
Lemma trim_twice s : exists r, trim s = Done r /\ trim r = Done r.
Proof. exact (twice trim _ trim_trims s). Qed.
Lemma trim_set_twice s l : exists r, trim_set s l = Done r /\ trim_set r l = Done r.
Proof. exact (twice (fun s => trim_set s l) _ (fun s => trim_set_trims s l) s). Qed.
Lemma trim_ascii_twice s : exists r, trimAscii7WhiteSpace s = Done r /\ trimAscii7WhiteSpace r = Done r.
Proof. exact (twice trimAscii7WhiteSpace _ trim_ascii_trims s). Qed.
Lemma trim_32_twice s : exists r, trimWhiteSpace_32 s = Done r /\ trimWhiteSpace_32 r = Done r.
Proof. exact (twice trimWhiteSpace_32 _ trim_32_trims s). Qed.
Lemma trim_16_twice s : exists r, trimWhiteSpace_16 s = Done r /\ trimWhiteSpace_16 r = Done r.
Proof. exact (twice trimWhiteSpace_16 _ trim_16_trims s). Qed.

(* ---------------------------------------------------------------- other encodings *)

Lemma units_hd c : scalar c -> exists u t, utf16_units c = u :: t /\ (wide_blank u <-> wide_blank c).
Proof.
  intros [Hc Hs]. unfold utf16_units. destruct (Z.ltb_spec c 0x10000); eexists; eexists; (split; [reflexivity|]).
  - reflexivity.
  - unfold wide_blank, ascii_blank. lia.
Qed.
Lemma units_last c : scalar c -> exists u t, utf16_units c = t ++ [u] /\ (wide_blank u <-> wide_blank c).
Proof.
  intros [Hc Hs]. unfold utf16_units. destruct (Z.ltb_spec c 0x10000).
  - exists c, []. split; reflexivity.
  - eexists. exists [0xD800 + (c - 0x10000) / 0x400]. split; [reflexivity|]. unfold wide_blank, ascii_blank. lia.
Qed.
Lemma flat_blank cs : Forall wide_blank cs -> flat_map utf16_units cs = cs.
Proof.
  intros H. induction H as [|c cs Hc _ IH]; [reflexivity|]. cbn [flat_map]. rewrite IH. rewrite utf16_units_bmp; [reflexivity|].
  unfold wide_blank, ascii_blank in Hc. lia.
Qed.
Lemma trimmed_units cs r : Forall scalar cs -> trimmed wide_blank cs r ->
  trimmed wide_blank (flat_map utf16_units cs) (flat_map utf16_units r).
Proof.
  intros Hs (f & b & -> & Hf & Hb & Hr). exists f, b. rewrite !flat_map_app, (flat_blank f), (flat_blank b) by assumption.
  split; [reflexivity|]. split; [assumption|]. split; [assumption|].
  apply Forall_app in Hs. destruct Hs as [_ Hs]. apply Forall_app in Hs. destruct Hs as [Hs _].
  destruct Hr as [->|[(x & t & E1 & Hx) (t' & y & E2 & Hy)]]; [now left|right]. split.
  - rewrite E1 in *. apply Forall_cons_inv in Hs. destruct (units_hd x (proj1 Hs)) as (u & w & Eu & Hu).
    exists u, (w ++ flat_map utf16_units t). cbn [flat_map]. rewrite Eu. split; [reflexivity|]. now rewrite Hu.
  - rewrite E2 in *. apply Forall_app in Hs. destruct Hs as [_ Hs]. apply Forall_cons_inv in Hs.
    destruct (units_last y (proj1 Hs)) as (u & w & Eu & Hu).
    exists (flat_map utf16_units t' ++ w), u. rewrite flat_map_app. cbn [flat_map]. rewrite Eu, app_nil_r, app_assoc.
    split; [reflexivity|]. now rewrite Hu.
Qed.
Lemma trimmed_Forall (P : Z -> Prop) Q s r : trimmed Q s r -> Forall P s -> Forall P r.
Proof. intros (f & b & -> & _) H. apply Forall_app in H. destruct H as [_ H]. apply Forall_app in H. tauto. Qed.

Lemma trim_utf16 cs us : utf16_text cs us ->
  exists r, trimWhiteSpace_32 cs = Done r /\ trimWhiteSpace_16 us = Done (flat_map utf16_units r).
Proof.
  intros [Hs ->]. destruct (trim_32_trims cs) as (r & E & Ht). exists r. split; [exact E|].
  destruct (trim_16_trims (flat_map utf16_units cs)) as (r' & E' & Ht'). rewrite E'. f_equal.
  exact (trimmed_unique _ _ _ _ Ht' (trimmed_units _ _ Hs Ht)).
Qed.

Lemma scalars_of_reads cs bs : reads_as cs bs -> Forall upto cs -> Forall scalar cs.
Proof. intros H Hu. apply encodable_upto_scalar; [eapply reads_as_range, H|exact Hu]. Qed.

Lemma toUtf8_16_flat cs : Forall scalar cs -> toUtf8_16_string (flat_map utf16_units cs) = Done (flat_map utf8_bytes cs).
Proof.
  intros Hs. assert (Ht : utf16_text cs (flat_map utf16_units cs)) by (split; auto).
  apply (toUtf8_16_exact (flat_map utf16_units cs) [] (utf16_text_text16 _ _ Ht)). apply reads_lenient. now apply LengthFuncs.utf16_text_reads.
Qed.

Lemma trim_utf8 cs bs : text8 bs -> reads_as cs bs -> Forall upto cs ->
  exists r, trimWhiteSpace_32 cs = Done r /\ trimWhiteSpace_8 bs = Done (flat_map utf8_bytes r).
Proof.
  intros T8 Hr Hu. pose proof (scalars_of_reads _ _ Hr Hu) as Hs.
  destruct (trim_utf16 cs _ (conj Hs eq_refl)) as (r & E & E'). exists r. split; [exact E|].
  unfold trimWhiteSpace_8, toUtf16_8_string, c_str. rewrite (proj1 (toUtf16_8_exact bs [] T8) cs (conj Hr Hu)). cbn [bind].
  rewrite E'. cbn [bind]. apply toUtf8_16_flat.
  destruct (trim_32_trims cs) as (r2 & E2 & Ht). rewrite E in E2. injection E2 as ->. exact (trimmed_Forall _ _ _ _ Ht Hs).
Qed.
Lemma trim_utf8_bad bs : text8 bs -> (forall cs, reads_as cs bs -> ~ Forall upto cs) -> trimWhiteSpace_8 bs = Done [].
Proof.
  intros T8 H. unfold trimWhiteSpace_8, toUtf16_8_string, c_str.
  rewrite (proj2 (toUtf16_8_exact bs [] T8)) by (intros cs [Hr Hu]; exact (H cs Hr Hu)). reflexivity.
Qed.

Lemma split_zero us : Forall byte us -> exists pre rest, (us = pre \/ us = pre ++ 0 :: rest) /\ text8 pre.
Proof.
  intros H. induction H as [|u us Hu _ (pre & rest & E & Hp)].
  - exists [], []. split; [now left|constructor].
  - destruct (Z.eq_dec u 0) as [->|Hz].
    + exists [], us. split; [now right|constructor].
    + exists (u :: pre), rest. split; [destruct E as [->| ->]; auto|]. constructor; [unfold byte in Hu; lia|assumption].
Qed.
Lemma trim_8_embedded us more : text8 us -> trimWhiteSpace_8 (us ++ 0 :: more) = trimWhiteSpace_8 us.
Proof.
  intros H. unfold trimWhiteSpace_8.
  replace (toUtf16_8_string (us ++ 0 :: more)) with (toUtf16_8_string us); [reflexivity|].
  symmetry. exact (embedded_zero _ us more (settled_toUtf16_8 us H)).
Qed.
Lemma trim_8_twice bs : Forall byte bs -> exists r, trimWhiteSpace_8 bs = Done r /\ trimWhiteSpace_8 r = Done r.
Proof.
  intros Hb. assert (Hgo : forall us, text8 us -> exists r, trimWhiteSpace_8 us = Done r /\ trimWhiteSpace_8 r = Done r).
  { intros us H. destruct (reads_bounded_dec 0x10FFFF us H) as [(cs & Hr & Hu)|Hn].
    - destruct (trim_utf8 cs us H Hr Hu) as (r & E & E'). exists (flat_map utf8_bytes r). split; [exact E'|].
      destruct (trim_32_trims cs) as (r2 & E2 & Ht). rewrite E in E2. injection E2 as <-.
      pose proof (trimmed_Forall _ _ _ _ Ht (scalars_of_reads _ _ Hr Hu)) as Hsr.
      pose proof (utf8_text_flat r (scalars_encodable8 _ Hsr)) as Htx.
      destruct (trim_utf8 r (flat_map utf8_bytes r)) as (r3 & E3 & E4); [now apply utf8_text_text8 in Htx|now apply reads_as_text|now apply scalars_upto|].
      destruct (trim_32_trims r) as (r4 & E5 & Ht4). rewrite E3 in E5. injection E5 as <-.
      rewrite E4. do 2 f_equal. exact (trimmed_unique _ _ _ _ Ht4 (trimmed_again _ _ _ Ht)).
    - exists []. split; [|reflexivity]. apply trim_utf8_bad; [assumption|]. intros cs Hr Hu. apply (Hn cs). auto. }
  destruct (split_zero bs Hb) as (pre & rest & [->| ->] & Hp); [now apply Hgo|]. rewrite trim_8_embedded by assumption. now apply Hgo.
Qed.

(* ---------------------------------------------------------------- against White_Space *)

Lemma white_space_split v c : 0 <= c -> wide_blank c <-> member v Whitespace c /\ ~ In c left_alone.
Proof.
  intros Hc. unfold member. replace (ucd_space v) with (ucd_space V7) by now destruct v.
  cbn [ucd_space]. unfold Gen.Ucd7.ucd_space, white_space_controls. rewrite !in_ranges_cons, in_ranges_nil.
  unfold wide_blank, ascii_blank, left_alone. cbn [In]. lia.
Qed.
Lemma trim_white_space v s : Forall unit32 s -> exists r, trimWhiteSpace_32 s = Done r /\
  trimmed (fun c => member v Whitespace c /\ ~ In c left_alone) s r.
Proof.
  intros Hs. destruct (trim_32_trims s) as (r & E & Ht). exists r. split; [exact E|].
  pose proof (trimmed_Forall _ _ _ _ Ht Hs) as Hsr.
  destruct Ht as (f & b & -> & Hf & Hb & Hr). exists f, b. split; [reflexivity|].
  apply Forall_app in Hs. destruct Hs as [Hsf Hs]. apply Forall_app in Hs. destruct Hs as [_ Hsb].
  split; [|split].
  - rewrite Forall_forall in *. intros x Hx. apply white_space_split; auto. exact (proj1 (Hsf x Hx)).
  - rewrite Forall_forall in *. intros x Hx. apply white_space_split; auto. exact (proj1 (Hsb x Hx)).
  - destruct Hr as [Hr|[(x & t & E1 & Hx) (u & y & E2 & Hy)]]; [now left|right]. split.
    + exists x, t. split; [assumption|]. rewrite E1 in Hsr. apply Forall_cons_inv in Hsr.
      intros H. apply Hx. apply (white_space_split v); [exact (proj1 (proj1 Hsr))|exact H].
    + exists u, y. split; [assumption|]. rewrite E2 in Hsr. apply Forall_app in Hsr. destruct Hsr as [_ Hsr]. apply Forall_cons_inv in Hsr.
      intros H. apply Hy. apply (white_space_split v); [exact (proj1 (proj1 Hsr))|exact H].
Qed.
Lemma left_alone_white v c : In c left_alone -> member v Whitespace c.
Proof.
  unfold member. replace (ucd_space v) with (ucd_space V7) by now destruct v.
  cbn [ucd_space]. unfold Gen.Ucd7.ucd_space, white_space_controls. rewrite !in_ranges_cons, in_ranges_nil.
  unfold left_alone. cbn [In]. lia.
Qed.
Lemma left_alone_refuted : exists c, (forall v, member v Whitespace c) /\ trimWhiteSpace_32 [c] = Done [c] /\
  trimWhiteSpace_16 [c] = Done [c] /\ trimWhiteSpace_8 (utf8_bytes c) = Done (utf8_bytes c).
Proof. exists 0x2028. split; [intros v; apply left_alone_white; cbn; tauto|]. repeat split. Qed.
Lemma trim_wide_trims s : exists r, trimWhiteSpace_32 s = Done r /\ trimWhiteSpace_16 s = Done r /\ trimmed wide_blank s r.
Proof. destruct (trim_32_trims s) as (r & E & H). exists r. split; [exact E|]. split; [exact E|exact H]. Qed.
Lemma trimmed_all_blank P s r : Forall P s -> trimmed P s r -> r = [].
Proof. intros H Ht. exact (trimmed_unique _ _ _ _ Ht (trimmed_blank _ _ H)). Qed.
Lemma trimmed_sides (P : Z -> Prop) front back front' back' r : r <> [] -> (forall x t, r = x :: t -> ~ P x) ->
  Forall P front -> Forall P front' -> front ++ r ++ back = front' ++ r ++ back' -> front = front' /\ back = back'.
Proof.
  intros Hr Hx Hf Hf' E. destruct r as [|x t]; [congruence|]. cbn [app] in E.
  destruct (front_unique P _ _ _ _ _ _ Hf Hf' (Hx x t eq_refl) (Hx x t eq_refl) E) as [-> E']. split; [reflexivity|].
  injection E' as E'. now apply app_inv_head in E'.
Qed.
Lemma left_alone_stays v c : In c left_alone -> member v Whitespace c /\ trimWhiteSpace_32 [c] = Done [c].
Proof.
  intros H. split; [now apply left_alone_white|]. unfold left_alone in H. cbn [In] in H.
  destruct H as [<-|[<-|[<-|[<-|[<-|[<-|[]]]]]]]; reflexivity.
Qed.
Lemma ideographic_space v : member v Whitespace 0x3000.
Proof. apply (white_space_split v); [discriminate|]. unfold wide_blank, ascii_blank. lia. Qed.
