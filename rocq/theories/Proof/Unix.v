(** What the recipes of the Makefile do to the disk. *)
From Coq Require Import ZArith List Bool String Ascii.
From Verif Require Import Model.Make Model.Stamps Model.Unix Spec.Install Spec.Unix.
From Verif Require Import Proof.InstallFacts Proof.InstallRest.
Import ListNotations.
Open Scope string_scope.
Open Scope list_scope.

(** * What a command may change, whatever comes of it *)

Definition touches (P : path -> Prop) (m : io unit) : Prop :=
  forall d r d', m d = (r, d') ->
    writable d' = writable d /\ forall p, look d' p = look d p \/ P p.

Lemma touches_more : forall (P Q : path -> Prop) m, (forall p, P p -> Q p) -> touches P m -> touches Q m.
Proof.
  intros P Q m K H d r d' E. destruct (H d r d' E) as (W & L). split; [assumption|].
  intro p. destruct (L p); [now left|right; auto].
Qed.

Lemma touches_then : forall P m k, touches P m -> touches P (k tt) -> touches P (andthen m k).
Proof.
  intros P m k H K d r d' E. unfold andthen in E. destruct (m d) as [[[]|e] d1] eqn:M.
  - destruct (H _ _ _ M) as (W1 & L1). destruct (K _ _ _ E) as (W2 & L2). split; [congruence|].
    intro p. destruct (L2 p) as [E2|]; [|now right]. destruct (L1 p) as [E1|]; [left; congruence|now right].
  - injection E as <- <-. exact (H _ _ _ M).
Qed.

Lemma touches_ret : forall P, touches P (ret tt).
Proof. intros P d r d' E. injection E as <- <-. split; [reflexivity|now left]. Qed.

Lemma touches_all : forall A (f : A -> io unit) P l, (forall a, In a l -> touches P (f a)) -> touches P (all_of f l).
Proof.
  induction l as [|a l IH]; intros H d r d' E; cbn in E.
  - injection E as <- <-. split; [reflexivity|now left].
  - destruct (f a d) as [r1 d1] eqn:F. destruct (all_of f l d1) as [r2 d2] eqn:G. injection E as _ <-.
    destruct (H a (or_introl eq_refl) _ _ _ F) as (W1 & L1).
    destruct (IH (fun b K => H b (or_intror K)) _ _ _ G) as (W2 & L2). split; [congruence|].
    intro p. destruct (L2 p) as [E2|]; [|now right]. destruct (L1 p) as [E1|]; [left; congruence|now right].
Qed.

Lemma look_entries : forall d d' p, entries d = entries d' -> look d p = look d' p.
Proof. intros d d' p E. unfold look. now rewrite E. Qed.

(** With or without sudo. *)
Lemma as_root_runs : forall root m d r d', as_root root m d = (r, d') -> touches (fun _ => True) m ->
  exists d1 d1', entries d1 = entries d /\ m d1 = (r, d1') /\ entries d1' = entries d' /\
    writable d' = writable d /\ (forall p, writable d p = true -> writable d1 p = true) /\
    (root = true -> forall p, writable d1 p = true) /\ (root = false -> writable d1 = writable d).
Proof.
  intros root m d r d' H T. unfold as_root in H. destruct root.
  - set (d1 := {| entries := entries d; writable := fun _ => true |}) in *.
    destruct (m d1) as [r1 d1'] eqn:M. injection H as <- <-.
    exists d1, d1'. repeat split; auto; discriminate.
  - exists d, d'. destruct (T _ _ _ H) as (W & _). repeat split; auto. discriminate.
Qed.

Lemma touches_root : forall P root m, touches P m -> touches P (as_root root m).
Proof.
  intros P root m H d r d' E.
  assert (T : touches (fun _ => True) m) by (eapply touches_more; [|exact H]; auto).
  destruct (as_root_runs _ _ _ _ _ E T) as (d1 & d1' & E1 & M & E2 & W & _).
  split; [assumption|]. intro p. destruct (H _ _ _ M) as (_ & L).
  rewrite <- (look_entries d1' d' p E2), <- (look_entries d1 d p E1). apply L.
Qed.

Lemma touches_mkdir : forall p, touches (eq p) (mkdir p).
Proof.
  intros p d r d' E. destruct (mkdir_step _ _ _ _ E) as [(_ & (W & L) & _)|(e & _ & -> & _)].
  - split; [assumption|]. intro q. rewrite L. destruct (same p q) eqn:S; [|now left].
    apply same_true in S. now right.
  - split; [reflexivity|now left].
Qed.

Lemma touches_unlink : forall p, touches (eq p) (unlink p).
Proof.
  intros p d r d' E. unfold unlink in E. destruct (look d p) as [[|data]|] eqn:K.
  - injection E as <- <-. split; [reflexivity|now left].
  - destruct (writable d p); injection E as <- <-; [|split; [reflexivity|now left]].
    split; [reflexivity|]. intro q. destruct p as [|a p]; [discriminate|].
    rewrite look_drop by discriminate. destruct (same _ q) eqn:S; [|now left]. apply same_true in S. now right.
  - injection E as <- <-. split; [reflexivity|now left].
Qed.

Lemma touches_rmdir : forall p, p <> [] -> touches (eq p) (rmdir p).
Proof.
  intros p N d r d' E. unfold rmdir in E.
  destruct (look d p) as [[|data]|]; try (injection E as <- <-; split; [reflexivity|now left]).
  destruct (negb (is_empty d p)); try (injection E as <- <-; split; [reflexivity|now left]).
  destruct (writable d p); injection E as <- <-; [|split; [reflexivity|now left]].
  split; [reflexivity|]. intro q. rewrite look_drop by assumption.
  destruct (same p q) eqn:S; [|now left]. apply same_true in S. now right.
Qed.

Lemma touches_if : forall P p m, touches P m -> touches P (if_dir p m).
Proof.
  intros P p m H d r d' E. unfold if_dir in E. destruct (is_dir d p); [exact (H _ _ _ E)|].
  injection E as <- <-. split; [reflexivity|now left].
Qed.

Lemma touches_semicolon : forall P a b, touches P a -> touches P b -> touches P (semicolon a b).
Proof.
  intros P a b H K d r d' E. unfold semicolon in E. destruct (a d) as [r1 d1] eqn:A. cbn in E.
  destruct (H _ _ _ A) as (W1 & L1). destruct (K _ _ _ E) as (W2 & L2). split; [congruence|].
  intro p. destruct (L2 p) as [E2|]; [|now right]. destruct (L1 p) as [E1|]; [left; congruence|now right].
Qed.

(** * mkdir -p *)

Lemma mkdir_below_any : forall rest top d r d', mkdir_below top rest d = (r, d') ->
  writable d' = writable d /\
  forall q, look d' q = look d q \/
    (look d q = None /\ look d' q = Some Dir /\ writable d q = true /\
     exists a b, rest = a ++ b /\ a <> [] /\ q = top ++ a).
Proof.
  induction rest as [|x rest IH]; intros top d r d' H; cbn [mkdir_below] in H.
  - injection H as <- <-. split; [reflexivity|now left].
  - unfold andthen in H. destruct (is_dir d (top ++ [x])) eqn:D.
    + destruct (IH _ _ _ _ H) as (W & L). split; [assumption|]. intro q.
      destruct (L q) as [E|(E1 & E2 & E3 & a & b & -> & N & ->)]; [now left|right].
      repeat split; try assumption. exists (x :: a), b. repeat split; [discriminate|].
      now rewrite <- app_assoc.
    + destruct (mkdir (top ++ [x]) d) as [[[]|e] d1] eqn:M.
      * destruct (mkdir_step _ _ _ _ M) as [(_ & (W1 & L1) & N1 & _ & K1)|(e & Q & _)]; [|discriminate].
        destruct (IH _ _ _ _ H) as (W & L). split; [congruence|]. intro q.
        destruct (L q) as [E|(E1 & E2 & E3 & a & b & -> & N & ->)].
        -- rewrite E, L1. destruct (same (top ++ [x]) q) eqn:S; [|now left]. apply same_true in S. subst q.
           right. repeat split; try assumption. exists [x], rest. repeat split; discriminate.
        -- right. rewrite L1 in E1. destruct (same _ _) in E1; [discriminate|].
           rewrite W1 in E3. repeat split; try assumption. exists (x :: a), b.
           repeat split; [discriminate|]. now rewrite <- app_assoc.
      * injection H as <- <-.
        destruct (mkdir_step _ _ _ _ M) as [(Q & _)|(e' & _ & -> & _)]; [discriminate|].
        split; [reflexivity|now left].
Qed.

Lemma mkdir_below_done : forall rest top d d', mkdir_below top rest d = (Returned tt, d') ->
  look d top = Some Dir -> look d' (top ++ rest) = Some Dir.
Proof.
  induction rest as [|x rest IH]; intros top d d' H T; cbn [mkdir_below] in H.
  - injection H as <-. now rewrite app_nil_r.
  - unfold andthen in H. destruct (is_dir d (top ++ [x])) eqn:D.
    + apply is_dir_true in D. apply IH in H; [|assumption]. now rewrite <- app_assoc in H.
    + destruct (mkdir (top ++ [x]) d) as [[[]|e] d1] eqn:M; [|discriminate].
      destruct (mkdir_step _ _ _ _ M) as [(_ & (W1 & L1) & _)|(e & Q & _)]; [|discriminate].
      apply IH in H; [now rewrite <- app_assoc in H|]. rewrite L1. now rewrite same_refl.
Qed.

Lemma mkdir_p_any : forall p d r d', mkdir_p p d = (r, d') ->
  writable d' = writable d /\
  forall q, look d' q = look d q \/
    (look d q = None /\ look d' q = Some Dir /\ writable d q = true /\ leads_to q p).
Proof.
  intros p d r d' H. destruct (mkdir_below_any _ _ _ _ _ H) as (W & L). split; [assumption|].
  intro q. destruct (L q) as [E|(E1 & E2 & E3 & a & b & -> & _ & ->)]; [now left|right].
  repeat split; try assumption. now exists b.
Qed.

Lemma mkdir_p_done : forall p d d', mkdir_p p d = (Returned tt, d') -> look d' p = Some Dir.
Proof. intros p d d' H. now apply (mkdir_below_done _ _ _ _ H). Qed.

Lemma touches_mkdir_p : forall p, touches (fun q => leads_to q p) (mkdir_p p).
Proof.
  intros p d r d' H. destruct (mkdir_p_any _ _ _ _ H) as (W & L). split; [assumption|].
  intro q. destruct (L q) as [|(_ & _ & _ & K)]; auto.
Qed.

(** * cp *)

Lemma copies_into : forall src dst xs d r d', src <> dst -> look d dst = Some Dir -> NoDup xs ->
  all_of (fun s => copy2 s dst) (map (fun x => src ++ [x]) xs) d = (r, d') ->
  writable d' = writable d /\
  (forall q, look d' q = look d q \/
     (exists x data, In x xs /\ q = dst ++ [x] /\ look d (src ++ [x]) = Some (File data) /\
        look d' q = Some (File data) /\ writable d q = true /\ look d q <> Some Dir)) /\
  (r = Returned tt -> forall x, In x xs -> exists data,
     look d (src ++ [x]) = Some (File data) /\ look d' (dst ++ [x]) = Some (File data) /\
     writable d (dst ++ [x]) = true).
Proof.
  intros src dst xs. induction xs as [|x xs IH]; intros d r d' N D U H; cbn [map all_of] in H.
  - injection H as <- <-. split; [reflexivity|]. split; [now left|]. intros _ x [].
  - destruct (copy2 (src ++ [x]) dst d) as [r1 d1] eqn:C.
    destruct (all_of (fun s => copy2 s dst) (map (fun x => src ++ [x]) xs) d1) as [r2 d2] eqn:A.
    injection H as R <-. apply NoDup_cons_iff in U. destruct U as (U1 & U2).
    apply copy2_step in C. cbn zeta in C.
    assert (B : basename (src ++ [x]) = x) by apply last_last. rewrite B in C.
    apply is_dir_true in D. rewrite D in C. apply is_dir_true in D.
    destruct C as [(data & -> & S & (W1 & L1) & K1 & K2 & _)|C].
    + assert (D1 : look d1 dst = Some Dir).
      { rewrite L1. destruct (same (dst ++ [x]) dst) eqn:E; [|assumption].
        apply same_true in E. rewrite <- (app_nil_r dst) in E at 2. apply app_inv_head in E. discriminate. }
      assert (S1 : forall y, look d1 (src ++ [y]) = look d (src ++ [y])).
      { intro y. rewrite L1. destruct (same (dst ++ [x]) (src ++ [y])) eqn:E; [|reflexivity].
        apply same_true, app_inj_tail in E. destruct E. congruence. }
      destruct (IH _ _ _ N D1 U2 A) as (W2 & L2 & R2).
      assert (X : look d2 (dst ++ [x]) = Some (File data)).
      { destruct (L2 (dst ++ [x])) as [E|(y & data' & I & E & _)].
        - rewrite E, L1. now rewrite same_refl.
        - apply app_inj_tail in E. destruct E as (_ & <-). contradiction. }
      split; [congruence|]. split.
      * intro q. destruct (same (dst ++ [x]) q) eqn:E.
        -- apply same_true in E. subst q. right. exists x, data. repeat split; try assumption. now left.
        -- destruct (L2 q) as [E2|(y & data' & I & -> & E3 & E4 & E5 & E6)].
           ++ left. rewrite E2, L1. now rewrite E.
           ++ right. exists y, data'. rewrite S1 in E3. rewrite W1 in E5. rewrite L1, E in E6.
              repeat split; try assumption. now right.
      * intros -> y [<-|I].
        -- exists data. repeat split; assumption.
        -- destruct (R2 R y I) as (data' & E1 & E2 & E3). exists data'.
           rewrite S1 in E1. rewrite W1 in E3. now repeat split.
    + destruct C as (e & -> & ->).
      destruct (IH _ _ _ N D U2 A) as (W2 & L2 & _). split; [assumption|]. split.
      * intro q. destruct (L2 q) as [|(y & data' & I & K)]; [now left|right].
        exists y, data'. split; [now right|assumption].
      * intros ->. discriminate.
Qed.

Lemma cp_into : forall src dst xs d, xs <> [] -> look d dst = Some Dir ->
  cp (map (fun x => src ++ [x]) xs) dst d = all_of (fun s => copy2 s dst) (map (fun x => src ++ [x]) xs) d.
Proof.
  intros src dst xs d N D. destruct xs as [|x [|y xs]]; [contradiction| |].
  - cbn [map cp all_of]. destruct (copy2 (src ++ [x]) dst d) as [[[]|e] d1]; reflexivity.
  - unfold cp. cbn [map]. apply is_dir_true in D. now rewrite D.
Qed.

(** * The names in a directory *)

Lemma names_in_true : forall d p x, In x (names_in d p) <-> look d (p ++ [x]) <> None.
Proof.
  intros d p x. unfold names_in. rewrite nodup_In, in_map_iff. split.
  - intros ([q n] & B & I). apply filter_In in I. destruct I as (I & C). cbn [fst] in B.
    unfold child_of in C. cbn [fst] in C. destruct q as [|a q]; [discriminate|].
    apply same_true in C. unfold parent in C. unfold basename in B.
    assert (E : a :: q = p ++ [x]) by (rewrite (app_removelast_last "" (l := a :: q)) by discriminate; congruence).
    rewrite <- E. cbn [look]. eapply in_find. eassumption.
  - intro H. destruct (look d (p ++ [x])) as [n|] eqn:E; [|contradiction].
    exists (p ++ [x], n). split; [apply last_last|]. apply filter_In. split.
    + unfold look in E. destruct (p ++ [x]) eqn:F; [now apply app_end_not_nil in F|]. now apply find_in_in.
    + unfold child_of. cbn [fst]. destruct (p ++ [x]) eqn:F; [now apply app_end_not_nil in F|].
      rewrite <- F, parent_app. apply same_refl.
Qed.

Lemma glob_true : forall e d p x, In x (glob e d p) <->
  look d (p ++ [x]) <> None /\ hidden x = false /\ ends e x = true.
Proof.
  intros. unfold glob. rewrite filter_In, names_in_true, andb_true_iff, negb_true_iff. tauto.
Qed.

Lemma expand_not_nil : forall e d p, expand e d p <> [].
Proof. intros. unfold expand. destruct (glob e d p); discriminate. Qed.

Lemma expand_nodup : forall e d p, NoDup (expand e d p).
Proof.
  intros. unfold expand. destruct (glob e d p) eqn:E.
  - repeat constructor. intros [].
  - rewrite <- E. unfold glob. apply NoDup_filter. apply NoDup_nodup.
Qed.

Lemma expand_in : forall e d p x, In x (glob e d p) -> In x (expand e d p).
Proof. intros e d p x H. unfold expand. destruct (glob e d p); [easy|assumption]. Qed.

Lemma in_expand : forall e d p x, In x (expand e d p) -> In x (glob e d p) \/ (glob e d p = [] /\ x = append "*" e).
Proof.
  intros e d p x H. unfold expand in H. destruct (glob e d p) eqn:E; [right|now left].
  destruct H as [H|[]]. now split.
Qed.
