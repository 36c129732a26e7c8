(* Statements and witnesses used by Props/Predicates.v. *)
From Coq Require Import ZArith List Bool Lia ZifyBool.
From Verif Require Import Machine.
From Verif.Model Require Import Internal Tables Predicate Str.
From Verif.Spec Require Import Utf Ucd Chain Result.
From Verif.Proof Require Import Bits Classes LowerTools TablesFacts Predicates.
Import ListNotations.
Local Open Scope Z_scope.

Lemma inconsistent_chain : exists v chain c, unit32 c /\ pred32 (tables v) (build chain) c = true /\ ~ meets v chain c.
Proof.
  exists V16, [(false, 3); (true, 3)], 0x85. split; [unfold unit32; lia|]. split; [reflexivity|].
  intros [Ha Hb]. apply (Hb Control); [left; reflexivity|]. apply (Ha Control). right. left. reflexivity.
Qed.
Lemma header_consistent : consistent [(true, 1); (false, 3); (false, 4)].
Proof.
  intros k [Hr Hf]. unfold requires, forbids in *. cbn [In] in Hr, Hf.
  destruct k; cbn [class_code] in *; intuition discriminate.
Qed.

Lemma no_check chain : checks_nothing chain ->
  (forall T c, pred8 T (build chain) c = true /\ pred16 T (build chain) c = true /\ pred32 T (build chain) c = true) /\
  (forall T p r, isUtf8 T p r (build chain) = isUtf8 T p r nullPredicate) /\
  (forall T p r, isUtf16 T p r (build chain) = isUtf16 T p r nullPredicate) /\
  (forall T p r, isUcs2 T p r (build chain) = isUcs2 T p r nullPredicate) /\
  (forall T p r, isUcs4 T p r (build chain) = isUcs4 T p r nullPredicate).
Proof. intros H. rewrite (checks_nothing_null chain H). repeat split. Qed.
Lemma out_of_range t : ~ (1 <= t <= 4) ->
  checks_nothing [(true, t)] /\ checks_nothing [(false, t)] /\ checks_nothing [] /\
  validIf t = nullPredicate /\ validIfNot t = nullPredicate.
Proof.
  intros H. assert (Hk : forall k, t <> class_code k) by (intros k E; apply H; rewrite E; destruct k; cbn [class_code]; lia).
  repeat split; try (now apply out_of_range_null); unfold requires, forbids; cbn [In];
    intros Hin; try (destruct Hin as [E|[]]; injection E; intros; first [discriminate | exact (Hk k ltac:(assumption))]);
    try (destruct Hin as [E|[]]; discriminate E); destruct Hin.
Qed.
Lemma nothing_case : checks_nothing [(true, 0); (false, 5); (true, -7)].
Proof. intros k. unfold requires, forbids. cbn [In]. destruct k; cbn [class_code]; split; intuition discriminate. Qed.
Lemma assigned_is_a_check : validIf kIsAssigned <> nullPredicate.
Proof. discriminate. Qed.

Lemma equality_is_equivalence :
  (forall p, predicateEq p p = true) /\
  (forall p q, predicateEq p q = predicateEq q p) /\
  (forall p q r, predicateEq p q = true -> predicateEq q r = true -> predicateEq p r = true).
Proof.
  split; [|split].
  - intros p. now apply predicateEq_eq.
  - intros p q. apply eq_true_iff_eq. rewrite !predicateEq_eq. split; congruence.
  - intros p q r. rewrite !predicateEq_eq. congruence.
Qed.
Lemma equal_accept_same T p q c : predicateEq p q = true ->
  pred8 T p c = pred8 T q c /\ pred16 T p c = pred16 T q c /\ pred32 T p c = pred32 T q c.
Proof. rewrite predicateEq_eq. intros ->. repeat split. Qed.
Lemma equal_to_default chain : predicateEq (build chain) nullPredicate = true <-> checks_nothing chain.
Proof.
  change nullPredicate with (build []). rewrite predicateEq_same. unfold same_checks, checks_nothing, requires, forbids.
  cbn [In]. split; intros H k; specialize (H k); tauto.
Qed.

Lemma class_exact v k c : unit32 c -> pred32 (tables v) (validIf (class_code k)) c = true <-> member v k c.
Proof.
  intros Hc. change (validIf (class_code k)) with (build [(true, class_code k)]).
  rewrite chain_meets; [|assumption|].
  - unfold meets, requires, forbids. cbn [In]. split.
    + intros [H _]. apply H. now left.
    + intros H. split; intros k' Hk; destruct Hk as [E|[]]; [|discriminate E]. injection E as E.
      replace k' with k; [assumption|]. destruct k, k'; first [reflexivity | discriminate E].
  - intros k' [_ Hf]. unfold forbids in Hf. cbn [In] in Hf. destruct Hf as [E|[]]. discriminate E.
Qed.
Lemma overloads_agree v pred c :
  (byte c -> pred8 (tables v) pred c = pred32 (tables v) pred c) /\
  (unit16 c -> pred16 (tables v) pred c = pred32 (tables v) pred c).
Proof. split; intros H; [now apply pred8_32|now apply pred16_32]. Qed.

Lemma class_case1 : member V16 Assigned 0x2A6DF.
Proof. apply inside_spec. vm_compute. reflexivity. Qed.
Lemma class_case2 : ~ member V12 Assigned 0x2A6DE.
Proof. cbn [member]. rewrite <- inside_spec. vm_compute. discriminate. Qed.
Lemma class_case3 : member V7 Private 0x10FFFD.
Proof. apply inside_spec. vm_compute. reflexivity. Qed.
Lemma class_case4 : member V7 Whitespace 0x3000.
Proof. left. apply inside_spec. vm_compute. reflexivity. Qed.
