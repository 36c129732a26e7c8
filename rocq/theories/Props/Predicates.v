(* C33-C36: encoding check predicates and the character classes behind them. *)
From Coq Require Import ZArith List Bool Lia.
From Verif Require Import Machine.
From Verif.Model Require Import Internal Tables Predicate Str.
From Verif.Spec Require Import Utf Ucd Chain Result.
From Verif.Proof Require Import Classes TablesFacts Predicates PredicateWitness.
Import ListNotations.
Local Open Scope Z_scope.

(* [build chain] makes the calls of the chain: validIf/validIfNot for its first element, andIf/andIfNot
   for the others; the empty chain is the default constructor. *)

(* ---- C33: chains mean conjunction ---- *)
Theorem C33_chain_is_conjunction : forall v chain c, unit32 c -> consistent chain ->
  (pred32 (tables v) (build chain) c = true <-> meets v chain c).
Proof. exact chain_meets. Qed.
Print Assumptions C33_chain_is_conjunction.

(* without the proviso: a class both required and forbidden counts as required *)
Theorem C33_chain_general : forall v chain c, unit32 c ->
  (pred32 (tables v) (build chain) c = true <-> meets_implemented v chain c).
Proof. exact chain_implemented. Qed.
Print Assumptions C33_chain_general.

(* the proviso is needed: validIfNot(kIsControl).andIf(kIsControl) accepts NEL, which no conjunction does *)
Theorem C33_inconsistent_chain_refuted : exists v chain c, unit32 c /\
  pred32 (tables v) (build chain) c = true /\ ~ meets v chain c.
Proof. exact inconsistent_chain. Qed.
Print Assumptions C33_inconsistent_chain_refuted.

(* validIf(kIsAssigned).andIfNot(kIsControl).andIfNot(kIsWhitespace), the example of the header *)
Example C33_case :
  let chain := [(true, 1); (false, 3); (false, 4)] in
  consistent chain /\
  build chain = andIfNot (andIfNot (validIf kIsAssigned) kIsControl) kIsWhitespace /\
  pred32 (tables V16) (build chain) 0x41 = true /\ pred32 (tables V16) (build chain) 0x2028 = false /\
  pred32 (tables V16) (build chain) 0x9F = false /\ pred32 (tables V16) (build chain) 0x378 = false.
Proof. exact (conj header_consistent (conj eq_refl (conj eq_refl (conj eq_refl (conj eq_refl eq_refl))))). Qed.

(* ---- C34: predicates that check nothing ---- *)
Theorem C34_no_check : forall chain, checks_nothing chain ->
  (forall T c, pred8 T (build chain) c = true /\ pred16 T (build chain) c = true /\ pred32 T (build chain) c = true) /\
  (forall T p r, isUtf8 T p r (build chain) = isUtf8 T p r nullPredicate) /\
  (forall T p r, isUtf16 T p r (build chain) = isUtf16 T p r nullPredicate) /\
  (forall T p r, isUcs2 T p r (build chain) = isUcs2 T p r nullPredicate) /\
  (forall T p r, isUcs4 T p r (build chain) = isUcs4 T p r nullPredicate).
Proof. exact no_check. Qed.
Print Assumptions C34_no_check.

Theorem C34_out_of_range : forall t, ~ (1 <= t <= 4) ->
  checks_nothing [(true, t)] /\ checks_nothing [(false, t)] /\ checks_nothing [] /\
  validIf t = nullPredicate /\ validIfNot t = nullPredicate.
Proof. exact out_of_range. Qed.
Print Assumptions C34_out_of_range.

Example C34_case : checks_nothing [(true, 0); (false, 5); (true, -7)] /\ validIf 5 = nullPredicate /\ validIf kIsAssigned <> nullPredicate.
Proof. exact (conj nothing_case (conj eq_refl assigned_is_a_check)). Qed.

(* ---- C35: equality ---- *)
Theorem C35_equality : forall a b, predicateEq (build a) (build b) = true <-> same_checks a b.
Proof. exact predicateEq_same. Qed.
Print Assumptions C35_equality.

Theorem C35_equivalence :
  (forall p, predicateEq p p = true) /\
  (forall p q, predicateEq p q = predicateEq q p) /\
  (forall p q r, predicateEq p q = true -> predicateEq q r = true -> predicateEq p r = true).
Proof. exact equality_is_equivalence. Qed.
Print Assumptions C35_equivalence.

Theorem C35_equal_accept_the_same : forall T p q c, predicateEq p q = true ->
  pred8 T p c = pred8 T q c /\ pred16 T p c = pred16 T q c /\ pred32 T p c = pred32 T q c.
Proof. exact equal_accept_same. Qed.
Print Assumptions C35_equal_accept_the_same.

Theorem C35_equal_to_default : forall chain, predicateEq (build chain) nullPredicate = true <-> checks_nothing chain.
Proof. exact equal_to_default. Qed.
Print Assumptions C35_equal_to_default.

Example C35_case :
  predicateEq (build [(true, 1); (false, 3)]) (build [(false, 3); (true, 1); (true, 1); (false, 9)]) = true /\
  predicateEq (build [(true, 1)]) (build [(false, 1)]) = false.
Proof. split; reflexivity. Qed.

(* ---- C36: the classes ---- *)
Theorem C36_classes_match_data : forall v k c, unit32 c ->
  (pred32 (tables v) (validIf (class_code k)) c = true <-> member v k c).
Proof. exact class_exact. Qed.
Print Assumptions C36_classes_match_data.

Theorem C36_overloads_agree : forall v pred c,
  (byte c -> pred8 (tables v) pred c = pred32 (tables v) pred c) /\
  (unit16 c -> pred16 (tables v) pred c = pred32 (tables v) pred c).
Proof. exact overloads_agree. Qed.
Print Assumptions C36_overloads_agree.

Example C36_case :
  member V16 Assigned 0x2A6DF /\ ~ member V12 Assigned 0x2A6DE /\ member V7 Private 0x10FFFD /\ member V7 Whitespace 0x3000 /\
  pred32 (tables V16) (validIf kIsAssigned) 0x2A6DF = true /\ pred32 (tables V12) (validIf kIsAssigned) 0x2A6DE = false.
Proof. exact (conj class_case1 (conj class_case2 (conj class_case3 (conj class_case4 (conj eq_refl eq_refl))))). Qed.
