(* More room changes no answer: a call that ends in some room for loops and nested calls ends the same way in
   any larger room. *)
From Coq Require Import ZArith List Bool String Lia.
From Verif Require Import Machine.
From Verif.Model Require Import Tables.
From Verif.Cxx Require Import Syntax Semantics Program Values.
From Verif.Gen Require Import Source.
Import ListNotations.
Local Open Scope string_scope.
Local Open Scope list_scope.
Local Open Scope Z_scope.

Definition less {A} (a b : outcome A) : Prop := a = OutOfFuel \/ a = b.

Lemma less_refl {A} (a : outcome A) : less a a.
Proof. now right. Qed.
Lemma less_bind {A B} (m m' : outcome A) (k k' : A -> outcome B) :
  less m m' -> (forall a, less (k a) (k' a)) -> less (bind m k) (bind m' k').
Proof. intros [->|<-] H; [left; reflexivity|]. destruct m; cbn; auto using less_refl. Qed.
Lemma less_trans {A} (a b c : outcome A) : less a b -> less b c -> less a c.
Proof. intros [->|<-] H; [now left | exact H]. Qed.

Section Mono.
Context (I : implementation) (G : list (string * value)) (R R' : calls).
Hypothesis HR : forall f vs, less (R f vs) (R' f vs).

Ltac mono :=
  repeat match goal with
  | |- less ?a ?a => apply less_refl
  | |- less (bind _ _) (bind _ _) => apply less_bind; [| intros ?]
  | |- less (match ?x with _ => _ end) (match ?x with _ => _ end) => destruct x
  | |- less (R _ _) (R' _ _) => apply HR
  | H : forall e : env, less _ _ |- _ => apply H
  | |- less (let '(_, _) := ?x in _) _ => destruct x
  end.

Lemma less_apply e f args vs : less (apply I R e f args vs) (apply I R' e f args vs).
Proof. unfold apply. mono. Qed.

Lemma less_cond (v : value) (e : env) (m m' : outcome (value * env)) :
  less m m' ->
  less match m with Done (w, _) => do r <- both_int I v w; Done (r, e) | Undefined => Done (v, e) | OutOfFuel => OutOfFuel end
       match m' with Done (w, _) => do r <- both_int I v w; Done (r, e) | Undefined => Done (v, e) | OutOfFuel => OutOfFuel end.
Proof. intros [->|<-]; [now left | apply less_refl]. Qed.

Lemma less_eval : forall x e, less (eval I R G x e) (eval I R' G x e).
Proof.
  fix IH 1.
  assert (HL : forall l e,
    less ((fix evals (l : list expr) (e : env) : outcome (list value * env) :=
             match l with
             | [] => Done ([], e)
             | a :: l' => do (v, e) <- eval I R G a e; do (vs, e) <- evals l' e; Done (v :: vs, e)
             end) l e)
         ((fix evals (l : list expr) (e : env) : outcome (list value * env) :=
             match l with
             | [] => Done ([], e)
             | a :: l' => do (v, e) <- eval I R' G a e; do (vs, e) <- evals l' e; Done (v :: vs, e)
             end) l e)).
  { fix IL 1. intros [|a l] e; [apply less_refl|].
    apply less_bind; [apply IH|]. intros [v e']. apply less_bind; [apply IL|]. intros [vs e'']. apply less_refl. }
  intros x env0. destruct x; cbn [eval].
  all: repeat match goal with
  | |- less ?a ?a => apply less_refl
  | |- less (eval I R G ?x ?e) _ => apply IH
  | |- less (apply I R _ _ _ _) _ => apply less_apply
  | |- less (R _ _) (R' _ _) => apply HR
  | |- less (bind _ _) (bind _ _) => apply less_bind; [| intros ?]
  | |- less (match eval I R G ?x ?e with _ => _ end) _ => apply less_cond, IH
  | |- less (match ?x with _ => _ end) (match ?x with _ => _ end) => destruct x
  | |- less _ _ => apply HL
  end.
Qed.

Lemma less_evals l : forall e, less (evals I R G l e) (evals I R' G l e).
Proof.
  induction l as [|a l IL]; intros e; [apply less_refl|].
  apply less_bind; [apply less_eval|]. intros [v e']. apply less_bind; [apply IL|]. intros [vs e'']. apply less_refl.
Qed.

Lemma less_condition c e : less (condition I R G c e) (condition I R' G c e).
Proof. apply less_bind; [apply less_eval|]. intros [v e']. apply less_refl. Qed.
Lemma less_steps l e : less (steps I R G l e) (steps I R' G l e).
Proof. apply less_bind; [apply less_evals|]. intros [v e']. apply less_refl. Qed.

Lemma less_loop n n' c c' b b' s s' : (n <= n')%nat ->
  (forall e, less (c e) (c' e)) -> (forall e, less (b e) (b' e)) -> (forall e, less (s e) (s' e)) ->
  forall e, less (loop n c b s e) (loop n' c' b' s' e).
Proof.
  intros Hn Hc Hb Hs. revert n' Hn. induction n as [|n IH]; intros n' Hn e; [now left|].
  destruct n' as [|n']; [lia|]. cbn [loop].
  apply less_bind; [apply Hc|]. intros [[] e1]; [|apply less_refl].
  apply less_bind; [apply Hb|]. intros [[] e2]; try apply less_refl.
  apply less_bind; [apply Hs|]. intros [? e3]. apply IH. lia.
Qed.
Lemma less_scoped f f' e : (forall e, less (f e) (f' e)) -> less (scoped f e) (scoped f' e).
Proof. intros H. apply less_bind; [apply H|]. intros [r e']. apply less_refl. Qed.
Lemma less_each x l f f' : (forall e, less (f e) (f' e)) -> forall e, less (each x l f e) (each x l f' e).
Proof.
  intros H. induction l as [|v l IH]; intros e; [apply less_refl|].
  apply less_bind; [apply H|]. intros [[] e']; try apply less_refl. apply IH.
Qed.

Lemma less_exec n n' : (n <= n')%nat -> forall s e, less (exec I R G n s e) (exec I R' G n' s e).
Proof.
  intros Hn.
  enough (H : forall s, (forall e, less (exec I R G n s e) (exec I R' G n' s e)) /\
    (forall k e, less
       ((fix from (m : nat) (s : stmt) {struct s} : env -> outcome (ending * env) :=
           match m, s with S m', SCase _ _ s' => from m' s' | _, _ => exec I R G n s end) k s e)
       ((fix from (m : nat) (s : stmt) {struct s} : env -> outcome (ending * env) :=
           match m, s with S m', SCase _ _ s' => from m' s' | _, _ => exec I R' G n' s end) k s e))).
  { intros s. apply H. }
  induction s;
    repeat match goal with H : _ /\ _ |- _ => destruct H end;
    match goal with |- ?P /\ _ =>
      assert (HM : P); [intros e0; cbn [exec] | split; [exact HM | intros [|k] e0; first [apply HM | auto]]] end.
  all: repeat match goal with
  | |- less ?a ?a => apply less_refl
  | |- less (eval I R G ?x ?e) _ => apply less_eval
  | |- less (evals I R G ?x ?e) _ => apply less_evals
  | |- less (condition I R G ?x ?e) _ => apply less_condition
  | H : forall e, less (exec I R G _ ?s e) _ |- less (exec I R G _ ?s _) _ => apply H
  | H : forall k e, less _ _ |- less (_ _ ?s _) _ => apply H
  | |- less (scoped _ _) (scoped _ _) => apply less_scoped; intros ?
  | |- less (loop _ _ _ _ _) _ => apply less_loop; [exact Hn | apply less_condition | intros ? | apply less_steps]
  | |- less (each _ _ _ _) _ => apply less_each
  | |- less (bind _ _) (bind _ _) => apply less_bind; [| intros ?]
  | |- less (match ?x with _ => _ end) (match ?x with _ => _ end) => destruct x
  | |- forall _, _ => intros ?
  end.
Qed.

Lemma less_params c ps : forall vs, less (bind_params I G R c ps vs) (bind_params I G R' c ps vs).
Proof.
  induction ps as [|p ps IH]; intros [|v vs]; cbn [bind_params]; try apply less_refl.
  - destruct (p_default p); [|apply less_refl].
    apply less_bind; [apply less_eval|]. intros [v e0]. apply less_bind; [apply less_refl|]. intros w.
    apply less_bind; [apply IH|]. intros. apply less_refl.
  - apply less_bind; [apply less_refl|]. intros w. apply less_bind; [apply IH|]. intros. apply less_refl.
Qed.

Lemma less_invoke n n' f vs : (n <= n')%nat -> less (invoke I G R n f vs) (invoke I G R' n' f vs).
Proof.
  intros Hn. unfold invoke. apply less_bind; [apply less_params|]. intros e.
  apply less_bind; [apply less_exec, Hn|]. intros [r e']. apply less_refl.
Qed.
End Mono.

Lemma less_run I G ext fs n n' : (n <= n')%nat -> forall d d', (d <= d')%nat ->
  forall f vs, less (run I G ext fs n d f vs) (run I G ext fs n' d' f vs).
Proof.
  intros Hn. induction d as [|d IH]; intros d' Hd f vs; [now left|].
  destruct d' as [|d']; [lia|]. cbn [run].
  destruct (ext f vs); [apply less_refl|]. destruct (select fs f vs); [|apply less_refl].
  apply less_invoke; [|exact Hn]. intros g ws. apply IH. lia.
Qed.

Lemma less_call I T n n' d d' f vs : (n <= n')%nat -> (d <= d')%nat -> less (call I T n d f vs) (call I T n' d' f vs).
Proof. intros Hn Hd. apply less_run; assumption. Qed.

(* one run is enough *)
Lemma runs_from I T n d f vs r : call I T n d f vs <> OutOfFuel ->
  (do a <- call I T n d f vs; Done (fst a)) = r -> runs_to I T f vs r.
Proof.
  intros Hn <-. exists (max n d). intros fuel depth Hf Hd.
  destruct (less_call I T n fuel d depth f vs) as [E|E]; [lia | lia | contradiction|]. rewrite <- E. reflexivity.
Qed.
(* a call has at most one answer, and has one if any run ends *)
Lemma runs_once I T f args r r' : runs_to I T f args r -> runs_to I T f args r' -> r = r'.
Proof.
  intros (n & H) (m & H'). rewrite <- (H (max n m) (max n m)), <- (H' (max n m) (max n m)); try lia. reflexivity.
Qed.
