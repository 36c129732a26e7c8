(* Witnesses used in Props/Laws.v. *)
From Coq Require Import ZArith List Bool Lia.
From Verif Require Import Machine.
From Verif.Model Require Import Tables Lower.
From Verif.Spec Require Import Utf Result Case Chain.
From Verif.Proof Require Import CaseFacts LowerMore.
Import ListNotations.
Local Open Scope Z_scope.

Lemma turkic_leaves_ascii : exists lang s, language lang /\ Forall ascii s /\
  forall v, exists low, toLower_32 (tables v) s lang = Done low /\ ~ Forall ascii low.
Proof.
  exists (At [0x74; 0x72; 0]), [0x49]. split.
  - right. exists [0x74; 0x72], []. split; [reflexivity|]. cbn [In]. lia.
  - split; [repeat constructor; unfold ascii; lia|]. intros v. exists [0x131]. split; [now destruct v|].
    intros H. inversion H. unfold ascii in *. lia.
Qed.
Lemma comma_caseless : forall v lang, language lang -> forall c, unit32 c -> toLower_32 (tables v) [c] lang = Done [0x2C] <-> c = 0x2C.
Proof. intros v lang H. apply (apart_caseless v lang 0x2C H). destruct v; vm_cast_no_check (eq_refl true). Qed.
Lemma no_forbid : ~ forbids [(true, 1); (false, 3)] Assigned.
Proof. unfold forbids. cbn [In class_code]. intros [E|[E|[]]]; discriminate E. Qed.
