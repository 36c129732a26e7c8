(* EncodingCheckPredicate. *)
From Coq Require Import ZArith List Bool Lia ZifyBool.
From Verif Require Import Machine.
From Verif.Model Require Import Internal Tables Predicate.
From Verif.Spec Require Import Utf Ucd Chain.
From Verif.Proof Require Import Bits Classes TablesFacts.
Import ListNotations.
Local Open Scope Z_scope.

(* the predicate a chain of calls builds *)
Definition extend (p : EncodingCheckPredicate) (q : bool * Z) : EncodingCheckPredicate :=
  if fst q then andIf p (snd q) else andIfNot p (snd q).
Definition start (q : bool * Z) : EncodingCheckPredicate := if fst q then validIf (snd q) else validIfNot (snd q).
Definition build (chain : list (bool * Z)) : EncodingCheckPredicate :=
  match chain with [] => nullPredicate | q :: l => fold_left extend l (start q) end.

(* sets of classes as four booleans *)
Record four := { fa : bool; fp : bool; fc : bool; fw : bool }.
Definition bits (s : four) : Z :=
  Z.lor (Z.lor (Z.lor (if fa s then 1 else 0) (if fp s then 2 else 0)) (if fc s then 4 else 0)) (if fw s then 8 else 0).
Definition get (s : four) (k : class) : bool := match k with Assigned => fa s | Private => fp s | Control => fc s | Whitespace => fw s end.
Definition of_fun (f : class -> bool) : four := {| fa := f Assigned; fp := f Private; fc := f Control; fw := f Whitespace |}.
Lemma get_of_fun f k : get (of_fun f) k = f k.
Proof. now destruct k. Qed.

Lemma bits_and s t : Z.land (bits s) (bits t) = bits (of_fun (fun k => get s k && get t k)).
Proof. destruct s as [a b c d], t as [a' b' c' d']; destruct a, b, c, d, a', b', c', d'; reflexivity. Qed.
Lemma bits_or s t : Z.lor (bits s) (bits t) = bits (of_fun (fun k => get s k || get t k)).
Proof. destruct s as [a b c d], t as [a' b' c' d']; destruct a, b, c, d, a', b', c', d'; reflexivity. Qed.
Lemma bits_eq s t : bits s = bits t <-> forall k, get s k = get t k.
Proof.
  split; [|intros H; destruct s, t; pose proof (H Assigned); pose proof (H Private); pose proof (H Control);
    pose proof (H Whitespace); cbn [get fa fp fc fw] in *; now subst].
  intros H k. destruct s as [a b c d], t as [a' b' c' d'].
  destruct k; destruct a, b, c, d, a', b', c', d'; first [reflexivity | discriminate H].
Qed.
Lemma bits_zero s : bits s = 0 <-> forall k, get s k = false.
Proof. change 0 with (bits (of_fun (fun _ => false))). rewrite bits_eq. split; intros H k; rewrite H; now destruct k. Qed.

(* the sets a chain asks about *)
Definition asks (p : bool) (chain : list (bool * Z)) (k : class) : bool :=
  existsb (fun q => eqb (fst q) p && (snd q =? class_code k)) chain.
Lemma asks_spec p chain k : asks p chain k = true <-> In (p, class_code k) chain.
Proof.
  unfold asks. rewrite existsb_exists. split.
  - intros ([p' z] & Hin & H). cbn [fst snd] in H. apply andb_true_iff in H. destruct H as [H1 H2].
    apply eqb_prop in H1. apply Z.eqb_eq in H2. now subst.
  - intros H. exists (p, class_code k). split; [assumption|]. cbn [fst snd]. now rewrite eqb_reflx, Z.eqb_refl.
Qed.
Definition mask_set chain := of_fun (fun k => asks true chain k || asks false chain k).
Definition value_set chain := of_fun (fun k => asks true chain k).

Definition represents (p : EncodingCheckPredicate) (chain : list (bool * Z)) : Prop :=
  m_mask p = bits (mask_set chain) /\ m_value p = bits (value_set chain).

Lemma make_represents b t : represents (makePredicate t b) [(b, t)].
Proof.
  unfold represents, makePredicate, kIsNone, kFirstInvalidEncoding.
  destruct (Z.gtb_spec t 0); cbn [andb]; [destruct (Z.ltb_spec t 5); cbn [andb]|].
  - assert (E : t = 1 \/ t = 2 \/ t = 3 \/ t = 4) by lia. destruct E as [->|[->|[->| ->]]]; destruct b; split; reflexivity.
  - assert (E : forall k p, asks p [(b, t)] k = false).
    { intros k p. unfold asks. cbn [existsb fst snd]. replace (t =? class_code k) with false by (destruct k; cbn [class_code]; lia).
      now rewrite andb_false_r. }
    unfold mask_set, value_set, of_fun. rewrite !E. split; reflexivity.
  - assert (E : forall k p, asks p [(b, t)] k = false).
    { intros k p. unfold asks. cbn [existsb fst snd]. replace (t =? class_code k) with false by (destruct k; cbn [class_code]; lia).
      now rewrite andb_false_r. }
    unfold mask_set, value_set, of_fun. rewrite !E. split; reflexivity.
Qed.
Lemma asks_app p a b k : asks p (a ++ b) k = asks p a k || asks p b k.
Proof. apply existsb_app. Qed.
Lemma extend_represents p chain q : represents p chain -> represents (extend p q) (chain ++ [q]).
Proof.
  intros [H1 H2]. destruct q as [b t]. destruct (make_represents b t) as [H3 H4].
  assert (E : extend p (b, t) = {| m_value := Z.lor (m_value p) (m_value (makePredicate t b));
                                   m_mask := Z.lor (m_mask p) (m_mask (makePredicate t b)) |}) by now destruct b.
  rewrite E. unfold represents. cbn [m_mask m_value]. rewrite H1, H2, H3, H4, !bits_or.
  split; apply bits_eq; intros k; unfold mask_set, value_set; rewrite !get_of_fun, ?asks_app; [|reflexivity].
  destruct (asks true chain k), (asks false chain k), (asks true [(b, t)] k), (asks false [(b, t)] k); reflexivity.
Qed.
Lemma build_represents chain : represents (build chain) chain.
Proof.
  destruct chain as [|[b t] l]; [split; reflexivity|]. cbn [build].
  assert (H : forall l p done, represents p done -> represents (fold_left extend l p) (done ++ l)).
  { clear l. induction l as [|q l IH]; intros p done Hp; cbn [fold_left]; [now rewrite app_nil_r|].
    replace (done ++ q :: l) with ((done ++ [q]) ++ l) by now rewrite <- app_assoc. apply IH. now apply extend_represents. }
  change ((b, t) :: l) with ([(b, t)] ++ l). apply H. unfold start. cbn [fst snd].
  destruct b; apply make_represents.
Qed.

(* the classes a character belongs to *)
Definition held32 (T : UnicodeTables) (c : Z) : four :=
  {| fa := t_assigned32 T c; fp := t_private32 T c; fc := t_control32 T c; fw := t_space32 T c |}.
Lemma mask32 T c : charToEncodingTypeMask32 T c = bits (held32 T c).
Proof. reflexivity. Qed.
Lemma held32_member v c k : unit32 c -> get (held32 (tables v) c) k = true <-> member v k c.
Proof.
  intros Hc. assert (0 <= c) by (unfold unit32 in Hc; lia). destruct k; cbn [held32 get fa fp fc fw member].
  - now apply assigned_exact.
  - now apply private_exact.
  - now apply control_exact.
  - now apply space_exact.
Qed.

Lemma pred32_get T p chain c : represents p chain ->
  pred32 T p c = true <-> forall k, (asks true chain k = true -> get (held32 T c) k = true) /\
    (asks false chain k = true -> asks true chain k = true \/ get (held32 T c) k = false).
Proof.
  intros [H1 H2]. unfold pred32. rewrite H1, H2, mask32, bits_and.
  destruct (Z.eqb_spec (bits (mask_set chain)) 0) as [E|E].
  - rewrite bits_zero in E. split; [intros _|reflexivity]. intros k. specialize (E k). unfold mask_set in E.
    rewrite get_of_fun in E. apply orb_false_iff in E. destruct E as [-> ->]. split; discriminate.
  - rewrite Z.eqb_eq, bits_eq. split; intros H k; specialize (H k); unfold mask_set, value_set in *;
      rewrite !get_of_fun in *; destruct (asks true chain k), (asks false chain k), (get (held32 T c) k);
      cbn [andb orb] in *; try discriminate H; try tauto; intuition (try discriminate).
Qed.

Lemma chain_implemented v chain c : unit32 c -> pred32 (tables v) (build chain) c = true <-> meets_implemented v chain c.
Proof.
  intros Hc. rewrite (pred32_get _ _ chain c (build_represents chain)). unfold meets_implemented, requires, forbids.
  setoid_rewrite asks_spec. split.
  - intros H. split; intros k Hk; destruct (H k) as [Ha Hb].
    + apply held32_member; auto.
    + destruct (Hb Hk) as [?|Hn]; [now left|right]. rewrite <- (held32_member v c k Hc), Hn. discriminate.
  - intros [Ha Hb] k. split; intros Hk.
    + apply held32_member; auto.
    + destruct (Hb k Hk) as [?|Hn]; [now left|right]. apply not_true_is_false. now rewrite held32_member.
Qed.
Lemma chain_meets v chain c : unit32 c -> consistent chain -> pred32 (tables v) (build chain) c = true <-> meets v chain c.
Proof.
  intros Hc Hk. rewrite chain_implemented by assumption. unfold meets, meets_implemented. split; intros [Ha Hb]; split; try assumption.
  - intros k Hf. destruct (Hb k Hf) as [Hr|Hn]; [|assumption]. exfalso. exact (Hk k (conj Hr Hf)).
  - intros k Hf. right. auto.
Qed.

(* the three overloads agree *)
Lemma pred8_32 v pred c : byte c -> pred8 (tables v) pred c = pred32 (tables v) pred c.
Proof.
  intros Hc. unfold pred8, pred32, charToEncodingTypeMask8, charToEncodingTypeMask32.
  rewrite assigned_8, private_8, control_8, space_8 by assumption. reflexivity.
Qed.

(* no check at all *)
Lemma checks_nothing_null chain : checks_nothing chain -> build chain = nullPredicate.
Proof.
  intros H. destruct (build_represents chain) as [H1 H2]. destruct (build chain) as [m w]. cbn [m_mask m_value] in *.
  unfold nullPredicate. f_equal; [rewrite H1|rewrite H2]; apply bits_zero; intros k; unfold mask_set, value_set; rewrite get_of_fun;
    destruct (H k) as [Ha Hb]; unfold requires, forbids in Ha, Hb; rewrite <- asks_spec in Ha, Hb;
    destruct (asks true chain k), (asks false chain k); tauto || reflexivity.
Qed.
Lemma out_of_range_null b t : ~ (1 <= t <= 4) -> makePredicate t b = nullPredicate.
Proof.
  intros H. unfold makePredicate, kIsNone, kFirstInvalidEncoding. replace ((t >? 0) && (t <? 5)) with false by lia. reflexivity.
Qed.
Lemma null_accepts T c : pred8 T nullPredicate c = true /\ pred16 T nullPredicate c = true /\ pred32 T nullPredicate c = true.
Proof. repeat split. Qed.
Lemma mask_zero_accepts T p c : m_mask p = 0 -> pred8 T p c = true /\ pred16 T p c = true /\ pred32 T p c = true.
Proof. intros H. unfold pred8, pred16, pred32. rewrite H. repeat split. Qed.

(* equality *)
Lemma predicateEq_eq p q : predicateEq p q = true <-> p = q.
Proof.
  unfold predicateEq. rewrite andb_true_iff, !Z.eqb_eq. destruct p as [a b], q as [a' b']; cbn [m_mask m_value]. split; [intros [-> ->]; reflexivity|].
  intros E. injection E as -> ->. auto.
Qed.
Lemma predicateEq_same a b : predicateEq (build a) (build b) = true <-> same_checks a b.
Proof.
  destruct (build_represents a) as [A1 A2]. destruct (build_represents b) as [B1 B2].
  unfold predicateEq. rewrite andb_true_iff, !Z.eqb_eq, A1, A2, B1, B2, !bits_eq.
  unfold same_checks, requires, forbids. setoid_rewrite <- asks_spec.
  unfold mask_set, value_set. setoid_rewrite get_of_fun. split.
  - intros [H1 H2] k. specialize (H1 k). specialize (H2 k). rewrite <- !orb_true_iff, H1, H2. tauto.
  - intros H. split; intros k; destruct (H k) as [Ha Hb]; rewrite <- !orb_true_iff in Hb; apply eq_true_iff_eq; assumption.
Qed.
