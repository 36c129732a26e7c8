(* Replacing functions given from outside by definitions: if the definitions do, on the values that occur, what
   was given, then every call does what it did.  The values that occur: a char, char16_t or char32_t is in the
   range of its type. *)
From Coq Require Import ZArith List Bool String Lia.
From Verif Require Import Machine.
From Verif.Cxx Require Import Syntax Semantics Linked.
From Verif.Proof Require Import Bits CxxPure.
Import ListNotations.
Local Open Scope string_scope.
Local Open Scope list_scope.
Local Open Scope Z_scope.

(* m' does what m does, unless m has too little room; what m gives has the property P *)
Definition same {A} (P : A -> Prop) (m m' : outcome A) : Prop := m = OutOfFuel \/ (m = m' /\ forall a, m = Done a -> P a).

Lemma same_bind {A B} (P : A -> Prop) (Q : B -> Prop) m m' k k' :
  same P m m' -> (forall a, P a -> same Q (k a) (k' a)) -> same Q (bind m k) (bind m' k').
Proof.
  intros [->|[<- H]] K; [left; reflexivity|]. destruct m as [a| |]; cbn [bind]; [apply K; auto | | left; reflexivity].
  right. split; [reflexivity | discriminate].
Qed.
Lemma same_done {A} (P : A -> Prop) a : P a -> same P (Done a) (Done a).
Proof. intros H. right. split; [reflexivity|]. now intros ? [= <-]. Qed.
Lemma same_undefined {A} (P : A -> Prop) : same P Undefined Undefined.
Proof. right. split; [reflexivity | discriminate]. Qed.
Lemma same_fuel {A} (P : A -> Prop) m : same P OutOfFuel m.
Proof. now left. Qed.
Lemma same_refl {A} (P : A -> Prop) m : (forall a, m = Done a -> P a) -> same P m m.
Proof. right. auto. Qed.
Lemma same_true {A} (m : outcome A) : same (fun _ => True) m m.
Proof. apply same_refl. auto. Qed.
Lemma same_weaken {A} (P Q : A -> Prop) m m' : (forall a, P a -> Q a) -> same P m m' -> same Q m m'.
Proof. intros H [->|[<- K]]; [now left | right; auto]. Qed.

Section Link.
Context (I : implementation).

Notation in_range := (in_range I).
Definition var_ok (b : string * binding) : Prop := match snd b with Var v => in_range v | _ => True end.
Definition env_ok (e : env) : Prop := Forall var_ok e.
Definition ve_ok (p : value * env) : Prop := in_range (fst p) /\ env_ok (snd p).
Definition vse_ok (p : list value * env) : Prop := Forall in_range (fst p) /\ env_ok (snd p).
Definition out_ok (o : option value) : Prop := match o with Some v => in_range v | None => True end.
Definition res_ok (p : value * list (option value)) : Prop := in_range (fst p) /\ Forall out_ok (snd p).

Lemma norm_ok t z : in_range (VI t (norm I t z)).
Proof. destruct t; cbn [in_range]; auto; apply norm_twice. Qed.

Lemma look_ok e x v : env_ok e -> look e x = Some (Var v) -> in_range v.
Proof.
  intros H. induction H as [|[y b] e Hb _ IH]; [discriminate|]. cbn [look]. destruct (String.eqb x y); [|exact IH].
  intros [= ->]. exact Hb.
Qed.
Lemma put_ok e x v : env_ok e -> in_range v -> env_ok (put e x v).
Proof.
  intros H Hv. induction H as [|[y b] e Hb He IH]; [constructor|]. cbn [put].
  destruct (String.eqb x y); constructor; assumption.
Qed.
Lemma set_ok e x v : env_ok e -> in_range v -> env_ok (set e x v).
Proof. intros. now apply put_ok. Qed.
Lemma write_back_ok args : forall outs e, env_ok e -> Forall out_ok outs -> env_ok (write_back e args outs).
Proof.
  induction args as [|a args IH]; intros outs e He Ho; [exact He|].
  destruct Ho as [|o outs Ho Hos]; [destruct a; exact He|].
  destruct a; try (apply IH; assumption). cbn [write_back]. destruct o; apply IH; auto using set_ok.
Qed.
Lemma drop_ok n : forall e, env_ok e -> env_ok (drop n e).
Proof. induction n; intros e H; [exact H|]. destruct H; [constructor | apply IHn; assumption]. Qed.
Lemma leave_ok e e' : env_ok e' -> env_ok (leave e e').
Proof. apply drop_ok. Qed.
Lemma both_ok a b : env_ok a -> env_ok b -> env_ok (both a b).
Proof. intros Ha Hb. induction Ha; [exact Hb | constructor; assumption]. Qed.

Lemma int_bin_ok o t a t' b v : int_bin I o t a t' b = Done v -> in_range v.
Proof.
  assert (C : forall z, in_range (VI (common t t') z)) by (intros z; destruct t, t'; exact Logic.I).
  assert (P : forall z, in_range (VI (promote t) z)) by (intros z; destruct t; exact Logic.I).
  unfold int_bin, result, shift_left, shift_right. destruct o;
    repeat match goal with |- context [if ?b then _ else _] => destruct b end; intros H; inversion H; subst; auto; exact Logic.I.
Qed.
Lemma result_ok t z v : result I (promote t) z = Done v -> in_range v.
Proof.
  assert (P : forall z, in_range (VI (promote t) z)) by (intros y; destruct t; exact Logic.I).
  unfold result. repeat match goal with |- context [if ?b then _ else _] => destruct b end; intros H; inversion H; auto.
Qed.
Lemma bin_ok o v w x : bin I o v w = Done x -> in_range x.
Proof.
  intros H. unfold bin in H.
  repeat match type of H with
  | match ?y with _ => _ end = _ => destruct y; try discriminate
  | bind ?m _ = _ => destruct m eqn:?; cbn [bind] in H; try discriminate
  | Done _ = Done _ => injection H as <-; exact Logic.I
  | int_bin _ _ _ _ _ _ = _ => exact (int_bin_ok _ _ _ _ _ _ H)
  end.
Qed.
Lemma convert_ok c t v w : in_range v -> convert I c t v = Done w -> in_range w.
Proof.
  intros Hv H. unfold convert in H.
  repeat match type of H with
  | match ?y with _ => _ end = _ => destruct y; try discriminate
  | bind ?m _ = _ => destruct m eqn:?; cbn [bind] in H; try discriminate
  | Done _ = Done _ => injection H as <-; first [assumption | exact Logic.I | apply norm_ok]
  end.
Qed.
Lemma load_ok t p v : load I t p = Done v -> in_range v.
Proof. unfold load. destruct p; [discriminate|]. destruct (element _ _); try discriminate. intros [= <-]. apply norm_ok. Qed.
Lemma index_ok v i w : index_of I v i = Done w -> in_range w.
Proof.
  unfold index_of. intros H.
  repeat match type of H with
  | match ?y with _ => _ end = _ => destruct y; try discriminate
  | bind ?m _ = _ => destruct m eqn:?; cbn [bind] in H; try discriminate
  | load _ _ _ = _ => exact (load_ok _ _ _ H)
  | Done _ = Done _ => injection H as <-; first [exact Logic.I | apply norm_ok]
  end.
Qed.
Lemma field_ok v f w : field v f = Done w -> in_range w.
Proof.
  unfold field. intros H. repeat match type of H with
  | match ?y with _ => _ end = _ => destruct y; try discriminate
  | Done _ = Done _ => injection H as <-; exact Logic.I
  end.
Qed.
Lemma set_field_ok v f x w : set_field I v f x = Done w -> in_range w.
Proof.
  unfold set_field. intros H. repeat match type of H with
  | match ?y with _ => _ end = _ => destruct y; try discriminate
  | bind ?m _ = _ => destruct m eqn:?; cbn [bind] in H; try discriminate
  | Done _ = Done _ => injection H as <-; exact Logic.I
  end.
Qed.
Lemma set_index_ok v i x w : set_index I v i x = Done w -> in_range w.
Proof.
  unfold set_index. intros H. repeat match type of H with
  | match ?y with _ => _ end = _ => destruct y; try discriminate
  | bind ?m _ = _ => destruct m eqn:?; cbn [bind] in H; try discriminate
  | Done _ = Done _ => injection H as <-; exact Logic.I
  end.
Qed.
Lemma construct_ok c t vs w : construct I c t vs = Done w -> in_range w.
Proof.
  unfold construct. intros H. repeat match type of H with
  | match ?y with _ => _ end = _ => destruct y; try discriminate
  | bind ?m _ = _ => destruct m eqn:?; cbn [bind] in H; try discriminate
  | Done _ = Done _ => injection H as <-; exact Logic.I
  end.
Qed.
Lemma increment_ok v w : increment I v = Done w -> in_range w.
Proof.
  unfold increment. intros H. repeat match type of H with
  | match ?y with _ => _ end = _ => destruct y; try discriminate
  | bind ?m _ = _ => destruct m eqn:?; cbn [bind] in H; try discriminate
  | Done _ = Done _ => injection H as <-; first [exact Logic.I | apply norm_ok]
  end.
Qed.
Lemma both_int_ok v w x : in_range v -> both_int I v w = Done x -> in_range x.
Proof.
  unfold both_int. intros Hv H. repeat match type of H with
  | match ?y with _ => _ end = _ => destruct y eqn:?; try discriminate
  | Done _ = Done _ => injection H as <-; subst; first [assumption | apply norm_ok]
  end.
Qed.
Lemma method_ok m v vs r : method I m v vs = Done r -> in_range (fst r) /\ in_range (snd r).
Proof.
  unfold method. intros H.
  destruct v; try discriminate;
  repeat match type of H with
  | match ?y with _ => _ end = _ => destruct y; try discriminate
  | bind ?m _ = _ => destruct m eqn:?; cbn [bind] in H; try discriminate
  | Done _ = Done _ => injection H as <-; split; exact Logic.I
  end.
Qed.

Section Step.
Context (G : list (string * value)) (R R' : calls).
Hypothesis HGok : forall x v, global G x = Some v -> in_range v.
Hypothesis HR : forall f vs, Forall in_range vs -> same res_ok (R f vs) (R' f vs).

Lemma same_pure {A B} (Q : B -> Prop) (m : outcome A) k k' :
  (forall a, m = Done a -> same Q (k a) (k' a)) -> same Q (bind m k) (bind m k').
Proof. intros H. destruct m; cbn [bind]; [auto | apply same_undefined | apply same_fuel]. Qed.

Lemma read_ok e x v : env_ok e -> read G e x = Done v -> in_range v.
Proof.
  intros He. unfold read. destruct (look e (name_of e x)) as [[w| |]|] eqn:E; try discriminate.
  - pose proof (look_ok _ _ _ He E). destruct w; try discriminate; intros [= <-]; assumption.
  - destruct (global G x) eqn:Q; intros [= <-]; [exact (HGok _ _ Q) | exact Logic.I].
Qed.

Lemma same_call e f vs : env_ok e -> Forall in_range vs ->
  same ve_ok (do r <- R f vs; Done (fst r, e)) (do r <- R' f vs; Done (fst r, e)).
Proof. intros He Hv. eapply same_bind; [apply HR, Hv|]. intros r [H1 H2]. apply same_done. split; assumption. Qed.

Lemma same_apply e f args vs : env_ok e -> Forall in_range vs ->
  same ve_ok (apply I R e f args vs) (apply I R' e f args vs).
Proof.
  intros He Hv. unfold apply.
  destruct (look e (name_of e f)) as [[v| |]|] eqn:E; try apply same_undefined.
  - destruct v; try apply same_undefined.
    + destruct vs as [|v [|]]; try apply same_undefined. apply same_pure. intros c _.
      apply same_done. split; [exact Logic.I | now apply set_ok].
    + apply same_call; [exact He | constructor; [exact Logic.I | exact Hv]].
    + now apply same_call.
  - eapply same_bind; [apply HR, Hv|]. intros r [H1 H2]. apply same_done. split; [exact H1 | now apply write_back_ok].
Qed.

Lemma same_cond (v : value) (e : env) (m m' : outcome (value * env)) :
  in_range v -> env_ok e -> same ve_ok m m' ->
  same ve_ok
    match m with Done (w, _) => do r <- both_int I v w; Done (r, e) | Undefined => Done (v, e) | OutOfFuel => OutOfFuel end
    match m' with Done (w, _) => do r <- both_int I v w; Done (r, e) | Undefined => Done (v, e) | OutOfFuel => OutOfFuel end.
Proof.
  intros Hv He [->|[<- H]]; [apply same_fuel|]. destruct m as [[w e']| |]; [| |apply same_fuel].
  - apply same_pure. intros r E. apply same_done. split; [exact (both_int_ok _ _ _ Hv E) | exact He].
  - apply same_done. now split.
Qed.

Ltac fact H L := let K := fresh in pose proof (L) as K; clear H.
Ltac facts :=
  repeat match goal with
  | H : bin _ _ _ _ = Done _ |- _ => apply bin_ok in H
  | H : load _ _ _ = Done _ |- _ => apply load_ok in H
  | H : index_of _ _ _ = Done _ |- _ => apply index_ok in H
  | H : field _ _ = Done _ |- _ => apply field_ok in H
  | H : set_field _ _ _ _ = Done _ |- _ => apply set_field_ok in H
  | H : set_index _ _ _ _ = Done _ |- _ => apply set_index_ok in H
  | H : construct _ _ _ _ = Done _ |- _ => apply construct_ok in H
  | H : increment _ _ = Done _ |- _ => apply increment_ok in H
  | H : method _ _ _ _ = Done _ |- _ => apply method_ok in H as [? ?]
  | H : read _ _ _ = Done _ |- _ => apply read_ok in H; [|assumption]
  | H : convert _ _ _ _ = Done _ |- _ => apply convert_ok in H; [|first [assumption | exact Logic.I]]
  end.
Ltac in_ranges :=
  first [ assumption | exact Logic.I | apply norm_ok | apply set_ok; in_ranges | constructor; in_ranges ].

Lemma same_eval : forall x e, env_ok e -> same ve_ok (eval I R G x e) (eval I R' G x e).
Proof.
  fix IH 1.
  assert (HL : forall l e, env_ok e ->
    same vse_ok
        ((fix evals (l : list expr) (e : env) : outcome (list value * env) :=
             match l with
             | [] => Done ([], e)
             | a :: l' => do (v, e) <- eval I R G a e; do (vs, e) <- evals l' e; Done (v :: vs, e)
             end) l e)
         ((fix evals (l : list expr) (e : env) : outcome (list value * env) :=
             match l with
             | [] => Done ([], e)
             | a :: l' => do (v, e) <- eval I R' G a e; do (vs, e) <- evals l' e; Done (v :: vs, e)
             end) l e)).
  { fix IL 1. intros [|a l] e He; [apply same_done; split; [constructor | exact He]|].
    eapply same_bind; [apply IH, He|]. intros [v e'] [Hv He']. eapply same_bind; [apply IL, He'|].
    intros [vs e''] [Hvs He'']. apply same_done. split; [now constructor | exact He'']. }
  intros x env0 He. destruct x; cbn [eval].
  all: repeat match goal with
  | |- same _ (Done _) (Done _) => apply same_done; split; cbn [fst snd]; facts; try in_ranges
  | |- same _ Undefined Undefined => apply same_undefined
  | |- same _ (eval I R G ?x ?e) _ => apply IH; assumption
  | |- same _ (apply I R _ _ _ _) _ => apply same_apply; assumption
  | |- same _ (bind (R _ _) _) _ => apply same_call; [assumption | first [assumption | repeat (constructor; try exact Logic.I); assumption | in_ranges]]
  | |- same _ (bind (eval I R G _ _) _) _ => eapply same_bind; [apply IH; assumption | intros [? ?] [? ?]; cbn [fst snd] in *]
  | |- same _ (bind ?m _) (bind ?m _) => apply same_pure; intros ? ?
  | |- same _ (bind _ _) (bind _ _) => eapply same_bind; [apply HL; assumption | intros [? ?] [? ?]; cbn [fst snd] in *]
  | |- same _ (match eval I R G ?x ?e with _ => _ end) _ => apply same_cond; [assumption | assumption | apply IH; assumption]
  | |- same _ (match ?x with _ => _ end) (match ?x with _ => _ end) => destruct x eqn:?
  end.
  - unfold literal_type. repeat match goal with |- context [match ?b with _ => _ end] => destruct b end; exact Logic.I.
  - match goal with H : result _ _ _ = Done _ |- _ => exact (result_ok _ _ _ H) end.
  - destruct x; try assumption. apply set_ok; assumption.
Qed.

Lemma same_evals l : forall e, env_ok e -> same vse_ok (evals I R G l e) (evals I R' G l e).
Proof.
  induction l as [|a l IL]; intros e He; [apply same_done; split; [constructor | exact He]|].
  eapply same_bind; [apply same_eval, He|]. intros [v e'] [Hv He']. eapply same_bind; [apply IL, He'|].
  intros [vs e''] [Hvs He'']. apply same_done. split; [now constructor | exact He''].
Qed.

Definition be_ok (p : bool * env) : Prop := env_ok (snd p).
Definition ee_ok (p : ending * env) : Prop := match fst p with Returned v => in_range v | _ => True end /\ env_ok (snd p).
Definition respects (f f' : env -> outcome (ending * env)) : Prop := forall e, env_ok e -> same ee_ok (f e) (f' e).

Lemma same_condition c e : env_ok e -> same be_ok (condition I R G c e) (condition I R' G c e).
Proof.
  intros He. eapply same_bind; [apply same_eval, He|]. intros [v e'] [_ He']. apply same_pure. intros b _. now apply same_done.
Qed.
Lemma same_steps l : respects (steps I R G l) (steps I R' G l).
Proof. intros e He. eapply same_bind; [apply same_evals, He|]. intros [v e'] [_ He']. apply same_done. now split. Qed.

Lemma same_loop n c c' b b' s s' : (forall e, env_ok e -> same be_ok (c e) (c' e)) -> respects b b' -> respects s s' ->
  respects (loop n c b s) (loop n c' b' s').
Proof.
  intros Hc Hb Hs. induction n as [|n IH]; intros e He; [apply same_fuel|]. cbn [loop].
  eapply same_bind; [apply Hc, He|]. intros [[] e1] He1; [|apply same_done; now split].
  eapply same_bind; [apply Hb, He1|]. intros [[| |v] e2] [Hv He2]; try (apply same_done; now split).
  eapply same_bind; [apply Hs, He2|]. intros [? e3] [_ He3]. apply IH, He3.
Qed.
Lemma same_scoped f f' : respects f f' -> respects (scoped f) (scoped f').
Proof. intros H e He. eapply same_bind; [apply H, He|]. intros [r e'] [Hv He']. apply same_done. split; [exact Hv | now apply leave_ok]. Qed.
Lemma same_each x l f f' : respects f f' -> Forall in_range l -> respects (each x l f) (each x l f').
Proof.
  intros H Hl. induction Hl as [|v l Hv Hl IH]; intros e He; [apply same_done; now split|].
  cbn [each]. eapply same_bind; [apply H; constructor; assumption|]. intros [[| |w] e'] [Hw He'];
    [apply IH; now apply leave_ok | |]; apply same_done; split; auto; now apply leave_ok.
Qed.
Lemma elements_ok v l : elements I v = Done l -> Forall in_range l.
Proof.
  destruct v; try discriminate; cbn [elements]; intros [= <-]; apply Forall_forall; intros x Hx;
    apply in_map_iff in Hx as (y & <- & _); [apply norm_ok | exact Logic.I].
Qed.

Ltac envs := first [ assumption | constructor; [first [exact Logic.I | assumption] | assumption] ].

Lemma same_exec fuel s : respects (exec I R G fuel s) (exec I R' G fuel s).
Proof.
  enough (H : respects (exec I R G fuel s) (exec I R' G fuel s) /\
    (forall k, respects
       ((fix from (m : nat) (s : stmt) {struct s} : env -> outcome (ending * env) :=
           match m, s with S m', SCase _ _ s' => from m' s' | _, _ => exec I R G fuel s end) k s)
       ((fix from (m : nat) (s : stmt) {struct s} : env -> outcome (ending * env) :=
           match m, s with S m', SCase _ _ s' => from m' s' | _, _ => exec I R' G fuel s end) k s))) by apply H.
  induction s;
    repeat match goal with H : _ /\ _ |- _ => destruct H end;
    match goal with |- ?P /\ _ =>
      assert (HM : P); [intros e0 He0; cbn [exec] | split; [exact HM | intros [|k]; first [exact HM | auto]]] end.
  all: repeat match goal with
  | |- same _ (Done _) (Done _) => apply same_done; split; cbn [fst snd]; facts; try envs
  | |- same _ Undefined Undefined => apply same_undefined
  | |- same _ (exec I R G _ ?s _) _ => match goal with H : respects (exec I R G _ s) _ |- _ => apply H; assumption end
  | |- respects (exec I R G _ ?s) _ => assumption
  | |- respects (scoped _) (scoped _) => apply same_scoped
  | |- respects (steps _ _ _ _) _ => apply same_steps
  | |- respects (fun _ => _) _ => intros ? ?
  | H : forall k, respects _ _ |- respects (_ _ ?s) _ => apply H
  | |- same _ (scoped _ _) (scoped _ _) => apply same_scoped; [|assumption]
  | |- same _ (loop _ _ _ _ _) _ => apply same_loop; [apply same_condition | | | assumption]
  | |- same _ (each _ _ _ _) _ => apply same_each; [|eapply elements_ok; eassumption | assumption]
  | |- same _ (bind (eval I R G _ _) _) _ => eapply same_bind; [apply same_eval; assumption | intros [? ?] [? ?]; cbn [fst snd] in *]
  | |- same _ (bind (evals I R G _ _) _) _ => eapply same_bind; [apply same_evals; assumption | intros [? ?] [? ?]; cbn [fst snd] in *]
  | |- same _ (bind (condition I R G _ _) _) _ =>
    eapply same_bind; [apply same_condition; assumption | intros [? ?] ?; cbn [be_ok fst snd] in *]
  | |- same _ (bind (exec I R G _ _ _) _) _ => eapply (same_bind ee_ok); [| intros [? ?] [? ?]; cbn [fst snd] in *]
  | |- same _ (bind (scoped _ _) _) _ => eapply (same_bind ee_ok); [| intros [? ?] [? ?]; cbn [fst snd] in *]
  | |- same _ (bind ?m _) (bind ?m _) => apply same_pure; intros ? ?
  | |- same _ (match ?x with _ => _ end) (match ?x with _ => _ end) => destruct x eqn:?
  end.
  all: try exact Logic.I.
  match goal with |- context [match match ?x with _ => _ end with _ => _ end] => destruct x; auto end.
Qed.

Lemma same_params c ps : forall vs, Forall in_range vs -> same env_ok (bind_params I G R c ps vs) (bind_params I G R' c ps vs).
Proof.
  induction ps as [|p ps IH]; intros vs Hvs; cbn [bind_params]; [apply same_done; constructor|].
  destruct Hvs as [|v vs Hv Hvs].
  - destruct (p_default p); [|apply same_undefined].
    eapply same_bind; [apply same_eval; constructor|]. intros [v e0] [Hv _]. apply same_pure. intros w Hw.
    eapply same_bind; [apply IH; constructor|]. intros e1 He1. apply same_done. constructor; [|exact He1].
    exact (convert_ok _ _ _ _ Hv Hw).
  - apply same_pure. intros w Hw. eapply same_bind; [apply IH, Hvs|]. intros e1 He1. apply same_done. constructor; [|exact He1].
    exact (convert_ok _ _ _ _ Hv Hw).
Qed.

Lemma outs_ok ps e : env_ok e -> Forall out_ok (outs ps e).
Proof.
  intros He. induction ps as [|p ps IH]; constructor; [|exact IH]. destruct (p_ref p); [|exact Logic.I].
  destruct (look e (p_name p)) as [[v| |]|] eqn:E; try exact Logic.I. exact (look_ok _ _ _ He E).
Qed.

Lemma same_invoke n d vs : Forall in_range vs -> same res_ok (invoke I G R n d vs) (invoke I G R' n d vs).
Proof.
  intros Hvs. unfold invoke. eapply same_bind; [apply same_params, Hvs|]. intros e He.
  eapply same_bind; [apply same_exec|].
  - apply both_ok; [exact He|]. destruct (deduce _ _); repeat constructor.
  - intros [r e'] [Hr He']. cbn [fst snd] in *. apply same_pure. intros v Hv. apply same_done.
    split; [|now apply outs_ok]. cbn [fst].
    assert (K : match r with Returned w => convert I (deduce (f_params d) vs) (f_ret d) w = Done v \/ v = VVoid | _ => v = VVoid end).
    { destruct r; destruct (f_ret d); try discriminate; try (injection Hv as <-); auto. }
    destruct r; [subst; exact Logic.I | subst; exact Logic.I |]. destruct K as [K|K]; [exact (convert_ok _ _ _ _ Hr K) | subst; exact Logic.I].
Qed.
End Step.
End Link.
