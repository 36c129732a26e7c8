(* Comparing a one-code-point mapping with a list of (argument, value) pairs. *)
From Coq Require Import ZArith List Bool Lia ZifyBool.
From Verif Require Import Machine.
From Verif.Spec Require Import Utf Ucd.
From Verif.Proof Require Import Bits Sweep Classes.
Import ListNotations.
Local Open Scope Z_scope.

(* f is the mapping given by l on [lo, hi): the listed value, or the argument itself *)
Definition follows (f : Z -> Z) (l : list (Z * Z)) (lo hi : Z) : Prop :=
  forall c, lo <= c < hi -> In (c, f c) l \/ (forall d, ~ In (c, d) l) /\ f c = c.

Definition inside (l : list (Z * Z)) (c : Z) : bool := existsb (fun r => (fst r <=? c) && (c <=? snd r)) l.
Lemma inside_spec l c : inside l c = true <-> in_ranges l c.
Proof.
  unfold inside. rewrite existsb_exists. split.
  - intros ([a b] & Hin & H). exists a, b. split; [assumption|]. cbn [fst snd] in H. lia.
  - intros (a & b & Hin & H). exists (a, b). split; [assumption|]. cbn [fst snd]. lia.
Qed.

(* the pairs of l whose argument lies in [lo, hi) *)
Definition part (lo hi : Z) (l : list (Z * Z)) : list (Z * Z) := filter (fun p => (lo <=? fst p) && (fst p <? hi)) l.
Lemma part_spec lo hi l c d : lo <= c < hi -> In (c, d) (part lo hi l) <-> In (c, d) l.
Proof. intros Hc. unfold part. rewrite filter_In. cbn [fst]. split; [tauto|]. split; [assumption|lia]. Qed.

Lemma follows_walk f l lo hi : walk_map f lo (part lo hi l) hi = true -> follows f l lo hi.
Proof.
  intros H. apply walk_map_ok in H. destruct H as (_ & _ & H). intros c Hc.
  destruct (H c Hc) as [Hin|[Hn E]]; [left|right].
  - now rewrite part_spec in Hin by assumption.
  - split; [|assumption]. intros d Hd. apply (Hn d). now rewrite part_spec by assumption.
Qed.
Lemma follows_join f l lo mid hi : follows f l lo mid -> follows f l mid hi -> follows f l lo hi.
Proof. intros H1 H2 c Hc. destruct (Z_lt_dec c mid); [apply H1|apply H2]; lia. Qed.
Lemma follows_id f l lo hi : (forall c, lo <= c < hi -> f c = c) ->
  forallb (fun p => (fst p <? lo) || (hi <=? fst p)) l = true -> follows f l lo hi.
Proof.
  intros Hf Hl c Hc. right. split; [|now apply Hf]. intros d Hd. rewrite forallb_forall in Hl.
  specialize (Hl _ Hd). cbn [fst] in Hl. lia.
Qed.

(* the list the code follows: l without the arguments in the ranges m, and with the pairs e *)
Fixpoint insert (p : Z * Z) (l : list (Z * Z)) : list (Z * Z) :=
  match l with [] => [p] | q :: l' => if fst p <? fst q then p :: l else q :: insert p l' end.
Definition amended (l m e : list (Z * Z)) : list (Z * Z) :=
  fold_right insert (filter (fun p => negb (inside m (fst p))) l) e.
Lemma insert_spec p q l : In p (insert q l) <-> p = q \/ In p l.
Proof.
  induction l as [|r l IH]; cbn [insert]; [cbn [In]; intuition congruence|].
  destruct (fst q <? fst r); cbn [In]; [intuition congruence|]. rewrite IH. tauto.
Qed.
Lemma amended_spec l m e c d : In (c, d) (amended l m e) <-> In (c, d) l /\ ~ in_ranges m c \/ In (c, d) e.
Proof.
  unfold amended. induction e as [|p e IH]; cbn [fold_right In].
  - rewrite filter_In. cbn [fst]. rewrite negb_true_iff, <- not_true_iff_false, inside_spec. tauto.
  - rewrite insert_spec, IH. intuition congruence.
Qed.

(* checks over the listed pairs only *)
Definition fixed_points (f : Z -> Z) (l : list (Z * Z)) : bool := forallb (fun p => f (snd p) =? snd p) l.
Definition good_values (l : list (Z * Z)) : bool :=
  forallb (fun p => (0 <? snd p) && ((snd p <? 0xD800) || (0xDFFF <? snd p)) && (snd p <=? 0x10FFFF) && negb (snd p =? fst p)) l.

Lemma follows_idempotent f l hi : follows f l 0 hi -> fixed_points f l = true ->
  forall c, 0 <= c < hi -> f (f c) = f c.
Proof.
  intros Hf Hl c Hc. destruct (Hf c Hc) as [Hin|[_ E]]; [|now rewrite E].
  unfold fixed_points in Hl. rewrite forallb_forall in Hl. specialize (Hl _ Hin). cbn [snd] in Hl. lia.
Qed.
Lemma follows_good f l hi : follows f l 0 hi -> good_values l = true -> forall c, 0 <= c < hi ->
  f c = c \/ scalar (f c) /\ 0 < f c.
Proof.
  intros Hf Hl c Hc. destruct (Hf c Hc) as [Hin|[_ E]]; [right|now left].
  unfold good_values in Hl. rewrite forallb_forall in Hl. specialize (Hl _ Hin). cbn [fst snd] in Hl.
  unfold scalar, surrogate. lia.
Qed.
