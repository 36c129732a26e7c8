(* Exhaustive computation over finite intervals of Z, and the lemmas lifting it to statements. *)
From Coq Require Import ZArith List Bool Lia ZifyBool.
From Verif.Spec Require Import Ucd.
Import ListNotations.
Local Open Scope Z_scope.

(* f holds on base .. base + p - 1 *)
Fixpoint all_pos (f : Z -> bool) (p : positive) (base : Z) : bool :=
  match p with
  | xH => f base
  | xO q => if all_pos f q base then all_pos f q (base + Zpos q) else false
  | xI q => if f base then if all_pos f q (base + 1) then all_pos f q (base + 1 + Zpos q) else false else false
  end.
Lemma all_pos_ok f p : forall base, all_pos f p base = true -> forall c, base <= c < base + Zpos p -> f c = true.
Proof.
  induction p as [q IH|q IH|]; intros base H c Hc; cbn [all_pos] in H.
  - destruct (f base) eqn:E0; [|discriminate]. destruct (all_pos f q (base + 1)) eqn:E1; [|discriminate].
    destruct (Z.eq_dec c base) as [->|Hne]; [assumption|].
    destruct (Z_lt_dec c (base + 1 + Zpos q)); [eapply IH; [exact E1|lia]|eapply IH; [exact H|lia]].
  - destruct (all_pos f q base) eqn:E1; [|discriminate].
    destruct (Z_lt_dec c (base + Zpos q)); [eapply IH; [exact E1|lia]|eapply IH; [exact H|lia]].
  - replace c with base by lia. assumption.
Qed.

(* f holds on lo .. hi - 1 *)
Definition all_between (f : Z -> bool) (lo hi : Z) : bool :=
  match hi - lo with Z0 => true | Zpos p => all_pos f p lo | Zneg _ => false end.
Lemma all_between_ok f lo hi : all_between f lo hi = true -> lo <= hi /\ forall c, lo <= c < hi -> f c = true.
Proof.
  unfold all_between. destruct (hi - lo) as [|p|p] eqn:E; intros H; [split; [lia|intros; lia]| |discriminate].
  split; [lia|]. intros c Hc. eapply all_pos_ok; [exact H|lia].
Qed.

(* f is exactly membership in the ascending ranges l, on cur .. last - 1 *)
Fixpoint walk (f : Z -> bool) (cur : Z) (l : list (Z * Z)) (last : Z) : bool :=
  match l with
  | [] => all_between (fun c => negb (f c)) cur last
  | (a, b) :: l =>
    if all_between (fun c => negb (f c)) cur a then
      if all_between f a (b + 1) then walk f (b + 1) l last else false
    else false
  end.
Lemma walk_ok f last l : forall cur, walk f cur l last = true ->
  cur <= last /\ (forall a b, In (a, b) l -> cur <= a /\ b < last) /\
  forall c, cur <= c < last -> (f c = true <-> in_ranges l c).
Proof.
  induction l as [|[a b] l IH]; intros cur H; cbn [walk] in H.
  - apply all_between_ok in H. destruct H as [H1 H2]. split; [assumption|]. split; [intros a b []|]. intros c Hc. split.
    + intros Hf. specialize (H2 c ltac:(lia)). rewrite Hf in H2. discriminate.
    + intros (? & ? & [] & _).
  - destruct (all_between (fun c => negb (f c)) cur a) eqn:E1; [|discriminate].
    destruct (all_between f a (b + 1)) eqn:E2; [|discriminate].
    apply all_between_ok in E1. apply all_between_ok in E2. destruct E1 as [L1 E1]. destruct E2 as [L2 E2].
    apply IH in H. destruct H as (L3 & Hl & H). split; [lia|]. split.
    { intros a' b' [Hin|Hin]; [injection Hin as <- <-; lia|]. specialize (Hl a' b' Hin). lia. }
    intros c Hc. destruct (Z_lt_dec c a); [|destruct (Z_lt_dec c (b + 1))].
    + split.
      * intros Hf. specialize (E1 c ltac:(lia)). cbn beta in E1. rewrite Hf in E1. discriminate.
      * intros (a' & b' & [Hin|Hin] & Hr); [injection Hin; lia|]. specialize (Hl a' b' Hin). lia.
    + split; [|intros _; apply E2; lia]. intros _. exists a, b. split; [now left|lia].
    + rewrite H by lia. split; intros (a' & b' & Hin & Hr).
      * exists a', b'. split; [now right|assumption].
      * destruct Hin as [Hin|Hin]; [injection Hin; lia|]. now exists a', b'.
Qed.

(* f is the identity off the ascending list l of (argument, value) pairs and the listed value on it *)
Fixpoint walk_map (f : Z -> Z) (cur : Z) (l : list (Z * Z)) (last : Z) : bool :=
  match l with
  | [] => all_between (fun c => f c =? c) cur last
  | (a, b) :: l =>
    if all_between (fun c => f c =? c) cur a then
      if f a =? b then walk_map f (a + 1) l last else false
    else false
  end.
Lemma walk_map_ok f last l : forall cur, walk_map f cur l last = true ->
  cur <= last /\ (forall a b, In (a, b) l -> cur <= a < last) /\
  forall c, cur <= c < last -> In (c, f c) l \/ (forall d, ~ In (c, d) l) /\ f c = c.
Proof.
  induction l as [|[a b] l IH]; intros cur H; cbn [walk_map] in H.
  - apply all_between_ok in H. destruct H as [H1 H2]. split; [assumption|]. split; [intros a b []|]. intros c Hc.
    right. split; [intros d []|]. specialize (H2 c Hc). cbn beta in H2. lia.
  - destruct (all_between (fun c => f c =? c) cur a) eqn:E1; [|discriminate].
    destruct (Z.eqb_spec (f a) b) as [E2|]; [|discriminate].
    apply all_between_ok in E1. destruct E1 as [L1 E1].
    apply IH in H. destruct H as (L3 & Hl & H). split; [lia|]. split.
    { intros a' b' [Hin|Hin]; [injection Hin as <- <-; lia|]. specialize (Hl a' b' Hin). lia. }
    intros c Hc. destruct (Z_lt_dec c a); [|destruct (Z.eq_dec c a) as [->|]].
    + right. split; [|specialize (E1 c ltac:(lia)); cbn beta in E1; lia].
      intros d [Hin|Hin]; [injection Hin; lia|]. specialize (Hl c d Hin). lia.
    + left. left. now rewrite E2.
    + destruct (H c ltac:(lia)) as [Hin|[Hn E]]; [left; now right|right]. split; [|assumption].
      intros d [Hin|Hin]; [injection Hin; lia|]. exact (Hn d Hin).
Qed.
