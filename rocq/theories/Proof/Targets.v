(** What [done_] remembers is so, unless something was scrubbed. *)
From Coq Require Import ZArith List Bool String Ascii.
From Verif Require Import Model.Make Model.Targets Spec.Install.
From Verif Require Import Proof.InstallFacts Proof.InstallDone Proof.InstallUndo Proof.InstallRest Proof.InstallCase.
Import ListNotations.
Open Scope string_scope.
Open Scope list_scope.

(** Everything that belongs somewhere has been built. *)
Definition all_built (here : path) (d : disk) : Prop :=
  forall t s, belongs t s -> exists data, look d (here ++ t) = Some (File data).

Lemma built_untouched : forall prefix here d d', untouched_but (ours prefix) d d' ->
  all_built here d -> all_built here d'.
Proof.
  intros prefix here d d' (_ & U) B t s K. destruct (B t s K) as (data & E). exists data.
  rewrite U; [exact E|]. intros (s' & E' & O). symmetry in E'.
  now apply (source_apart prefix here t s K s' O).
Qed.

Section Targets.
Variables prefix here : path.
Variable nsis : bool.
Variable package : string.
Variable build : io unit.
Variable other : string -> list string -> io (list string).

Definition remembers (done : list string) (d : disk) : Prop := In "all" done -> all_built here d.

Hypothesis builds : forall d d', build d = (Returned tt, d') -> all_built here d'.
Hypothesis others : forall t done d done' d', remembers done d ->
  other t done d = (Returned done', d') -> remembers done' d'.

Lemma ensure_built : forall done d done' d', remembers done d ->
  ensure build done d = (Returned done', d') -> all_built here d'.
Proof.
  intros done d done' d' R H. unfold ensure in H. destruct (existsb (String.eqb "all") done) eqn:E.
  - injection H as <- <-. apply R. apply existsb_exists in E. destruct E as (t & T & E).
    apply String.eqb_eq in E. now subst t.
  - unfold andthen in H. destruct (build d) as [[[]|e] d1] eqn:B; [|discriminate].
    injection H as <- <-. now apply (builds d).
Qed.

Lemma target_remembers : forall t done d done' d', t <> "scrub" -> t <> "clean" -> remembers done d ->
  do_target prefix here nsis package build other done t d = (Returned done', d') -> remembers done' d'.
Proof.
  intros t done d done' d' NS NC R H. unfold do_target in H.
  destruct (String.eqb t "all").
  { unfold andthen in H. destruct (build d) as [[[]|e] d1] eqn:B; [|discriminate].
    injection H as <- <-. intros _. now apply (builds d). }
  destruct (String.eqb t "install").
  { unfold andthen in H at 1. destruct (ensure build done d) as [[done1|e] d1] eqn:E; [|discriminate].
    unfold andthen in H. destruct (install prefix here d1) as [[[]|e] d2] eqn:I; [|discriminate].
    injection H as <- <-. intros _. apply (built_untouched prefix here d1).
    - eapply install_keeps. eassumption.
    - eapply ensure_built; eassumption. }
  destruct (String.eqb t "uninstall").
  { unfold andthen in H. destruct (uninstall prefix d) as [[[]|e] d1] eqn:U; [|discriminate].
    injection H as <- <-. intro A. apply (built_untouched prefix here d); [|now apply R].
    eapply uninstall_keeps. eassumption. }
  destruct (String.eqb t "clean") eqn:C; [apply String.eqb_eq in C; contradiction|].
  destruct (String.eqb t "scrub") eqn:S; [apply String.eqb_eq in S; contradiction|].
  destruct (String.eqb t "help"); [injection H as <- <-; exact R|].
  destruct (existsb (String.eqb t) targets); [|discriminate].
  eapply others; eassumption.
Qed.

Lemma targets_remember : forall ts done d done' d', ~ In "scrub" ts -> ~ In "clean" ts -> remembers done d ->
  do_targets prefix here nsis package build other done ts d = (Returned done', d') -> remembers done' d'.
Proof.
  induction ts as [|t ts IH]; intros done d done' d' S C R H.
  - injection H as <- <-. exact R.
  - cbn [do_targets] in H. unfold andthen in H.
    destruct (do_target prefix here nsis package build other done t d) as [[done1|e] d1] eqn:E; [|discriminate].
    apply (IH done1 d1); try assumption; try (intro K; cbn in *; tauto).
    apply (target_remembers t done d); try assumption; intros ->; cbn in *; tauto.
Qed.

Lemma clean_first : forall raw, ~ In "help" raw -> raw <> [] ->
  exists c ts, valid_order raw = c ++ ts /\ (c = [] \/ c = ["clean"]) /\ ~ In "clean" ts /\
               (forall t, In t ts -> In t raw).
Proof.
  intros raw H N. unfold valid_order.
  replace (existsb (fun t => String.eqb t "help") raw) with false.
  - set (c := if existsb (fun t => String.eqb t "clean") raw then ["clean"] else []).
    set (ts := filter (fun t => negb (String.eqb t "clean")) raw).
    exists c, ts. split.
    + destruct (c ++ ts) eqn:E; [|reflexivity]. exfalso.
      apply app_eq_nil in E. destruct E as (E1 & E2). subst c ts.
      destruct raw as [|r raw]; [contradiction|]. cbn in E1, E2.
      destruct (String.eqb r "clean"); discriminate.
    + split; [subst c; destruct (existsb _ raw); tauto|]. split.
      * intro K. apply filter_In in K. destruct K as (_ & K). discriminate.
      * intros t K. apply filter_In in K. tauto.
  - symmetry. apply not_true_iff_false. intro E. apply existsb_exists in E. destruct E as (t & T & E).
    apply String.eqb_eq in E. subst t. contradiction.
Qed.

Lemma do_targets_app : forall a b done d,
  do_targets prefix here nsis package build other done (a ++ b) d =
  andthen (do_targets prefix here nsis package build other done a)
    (fun done => do_targets prefix here nsis package build other done b) d.
Proof.
  induction a as [|t a IH]; intros b done d; [reflexivity|].
  cbn [do_targets app]. unfold andthen.
  destruct (do_target prefix here nsis package build other done t d) as [[done1|e] d1]; [|reflexivity].
  rewrite IH. reflexivity.
Qed.

Theorem install_finds : forall raw a b d done1 d1 done2 d2,
  ~ In "help" raw -> ~ In "scrub" raw -> valid_order raw = a ++ "install" :: b ->
  do_targets prefix here nsis package build other [] a d = (Returned done1, d1) ->
  ensure build done1 d1 = (Returned done2, d2) -> all_built here d2.
Proof.
  intros raw a b d done1 d1 done2 d2 H S V A E.
  apply (ensure_built done1 d1 done2); [|assumption].
  assert (N : raw <> []) by (intros ->; cbn in V; destruct a as [|x [|y a]]; discriminate).
  destruct (clean_first raw H N) as (c & ts & V' & C & K & I).
  rewrite V in V'.
  assert (Q : exists a', a = c ++ a' /\ ~ In "clean" a' /\ ~ In "scrub" a').
  { destruct C as [->| ->].
    - exists a. cbn in V'. subst ts. split; [reflexivity|]. split.
      + intro Q. apply K. apply in_or_app. now left.
      + intro Q. apply S, I. apply in_or_app. now left.
    - destruct a as [|x a]; cbn in V'; [discriminate|]. injection V' as -> <-.
      exists a. split; [reflexivity|]. split.
      + intro Q. apply K. apply in_or_app. now left.
      + intro Q. apply S, I. apply in_or_app. now left. }
  destruct Q as (a' & -> & Q1 & Q2).
  rewrite do_targets_app in A. unfold andthen in A.
  destruct (do_targets prefix here nsis package build other [] c d) as [[done0|e] d0] eqn:D; [|discriminate].
  apply (targets_remember a' done0 d0); try assumption.
  assert (Z : done0 = []).
  { destruct C as [->| ->]; cbn in D.
    - injection D as <- <-. reflexivity.
    - unfold andthen in D. destruct (clean here nsis package d) as [[[]|e] d'']; [|discriminate].
      injection D as <- <-. reflexivity. }
  subst done0. intros [].
Qed.

End Targets.

(** After all and scrub, nothing is rebuilt. *)
Lemma rmdir_s_gone : forall p d d', p <> [] -> sound d -> rmdir_s p d = (Returned tt, d') ->
  (forall e, In e (entries d) -> below p (fst e) = true -> writable d (fst e) = true) ->
  forall q, below p q = true -> q <> p -> look d' q = None.
Proof.
  intros p d d' N W H A q B Q. unfold rmdir_s in H. destruct (is_dir d p) eqn:D.
  - unfold rmtree in H.
    replace (forallb (fun e => negb (below p (fst e)) || writable d (fst e)) (entries d)) with true in H.
    + injection H as <-. destruct q as [|a q]; [destruct p; [contradiction|discriminate]|].
      cbn [look entries snd]. rewrite find_filter_below. now rewrite B.
    + symmetry. apply forallb_forall. intros e E. destruct (below p (fst e)) eqn:F; [|reflexivity].
      now apply A.
  - injection H as <-. apply below_true in B. destruct B as (s & ->).
    destruct (look d (p ++ s)) eqn:L; [exfalso|reflexivity].
    assert (K : forall s, s <> [] -> look d (p ++ s) <> None -> look d p = Some Dir).
    { clear - W. intros s. induction s as [|x s IH] using rev_ind; intros N H; [contradiction|].
      rewrite app_assoc in H. apply W in H. destruct s as [|y s]; [now rewrite app_nil_r in H|].
      apply IH; [discriminate|]. rewrite H. discriminate. }
    assert (S : s <> []) by (intros ->; apply Q; apply app_nil_r).
    assert (L' : look d (p ++ s) <> None) by (rewrite L; discriminate).
    specialize (K s S L'). apply is_dir_true in K. congruence.
Qed.

Lemma rm_f_look : forall p d r d', rm_f p d = (r, d') -> forall q, look d' q = look d q \/ look d' q = None.
Proof.
  intros p d r d' H q. unfold rm_f in H. destruct (is_dir d (parent p) && is_file d p); [|injection H as <- <-; now left].
  unfold unlink in H. destruct (look d p) as [[|data]|] eqn:E; try (injection H as <- <-; now left).
  destruct (writable d p); injection H as <- <-; [|now left].
  destruct p as [|a p]; [discriminate|]. rewrite look_drop by discriminate.
  destruct (same _ q); [now right|now left].
Qed.

Lemma rmdir_s_look : forall p d r d', p <> [] -> rmdir_s p d = (r, d') -> forall q, look d' q = look d q \/ look d' q = None.
Proof.
  intros p d r d' N H q. unfold rmdir_s in H. destruct (is_dir d p); [|injection H as <- <-; now left].
  unfold rmtree in H. destruct (forallb _ (entries d)); injection H as <- <-; [|now left].
  destruct q as [|a q]; [left; reflexivity|]. cbn [look entries snd]. rewrite find_filter_below.
  destruct (below p (a :: q)); [now right|now left].
Qed.

Theorem scrubbed_install : forall prefix here nsis package build other d d1,
  sound d1 -> build d = (Returned tt, d1) ->
  (forall e, In e (entries d1) -> below (here ++ ["build"]) (fst e) = true -> writable d1 (fst e) = true) ->
  forall done d', do_targets prefix here nsis package build other [] ["all"; "scrub"; "install"] d <> (Returned done, d').
Proof.
  intros prefix here nsis package build other d d1 W B A done d' H.
  cbn [do_targets] in H. unfold do_target in H. cbn [String.eqb Ascii.eqb Bool.eqb] in H.
  unfold andthen at 1 2 in H. rewrite B in H. cbn [ret] in H.
  unfold andthen at 1 2 in H. unfold scrub in H.
  unfold andthen at 1 in H.
  destruct (rmdir_s (here ++ ["build"]) d1) as [[[]|e] d2] eqn:R1; [|discriminate].
  unfold andthen at 1 in H.
  destruct (rm_f (here ++ ["configvars.py"]) d2) as [[[]|e] d3] eqn:R2; [|discriminate].
  destruct (rmdir_s (here ++ ["__pycache__"]) d3) as [[[]|e] d4] eqn:R3; [|discriminate].
  cbn [ret] in H. unfold andthen in H. unfold ensure in H. cbn [existsb String.eqb Ascii.eqb Bool.eqb orb ret] in H.
  destruct (install prefix here d4) as [[[]|e] d5] eqn:I; [|discriminate].
  destruct (install_needs _ _ _ _ I) as (_ & _ & F).
  assert (K : belongs (built "x64" "Release" library) (installed "x64" "Release" library))
    by (apply belongs_library; cbv; tauto).
  assert (K' : installed "x64" "Release" library <> installed "Win32" "MinSizeRel" library) by discriminate.
  destruct (F _ _ K K') as (data & L).
  assert (G : look d2 (here ++ built "x64" "Release" library) = None).
  { apply (rmdir_s_gone (here ++ ["build"]) d1 d2); try assumption.
    - apply app_end_not_nil.
    - apply below_true. exists ["x64"; "Release"; library]. unfold built. now rewrite <- app_assoc.
    - unfold built. intro E. apply app_inv_head in E. discriminate. }
  destruct (rm_f_look _ _ _ _ R2 (here ++ built "x64" "Release" library)) as [E|E];
    destruct (rmdir_s_look _ _ _ _ (app_end_not_nil here "__pycache__") R3 (here ++ built "x64" "Release" library)) as [E'|E'];
    congruence.
Qed.
