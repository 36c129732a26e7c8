(** The list of sources that configure writes, and what happens without it. *)
From Coq Require Import ZArith List Bool String Ascii Lia.
From Verif Require Import Model.Make Model.Stamps Spec.Fresh Proof.InstallFacts Proof.Stamps.
Import ListNotations.
Open Scope string_scope.
Open Scope list_scope.

Lemma timely_libraries : forall t u, timely (tree u) -> timely (tree (snd (make_libraries t u))).
Proof.
  intros t u H. unfold make_libraries. destruct (existsb _ _); [assumption|].
  destruct (out_of_date u); [|assumption].
  pose proof (timely_set_made Libraries t (tree u) H) as K.
  destruct (set_made Libraries t (tree u)) as [ok w]. exact K.
Qed.

Lemma timely_tests : forall t u, timely (tree u) -> timely (tree (snd (make_tests t u))).
Proof.
  intros t u H. unfold make_tests. pose proof (timely_libraries (t Libraries) u H) as K.
  destruct (make_libraries (t Libraries) u) as [[|] u']; [|assumption]. cbn [snd] in K.
  pose proof (timely_set_made Tests (t Tests) (tree u') K) as K'.
  destruct (t Tests); destruct (set_made Tests _ (tree u')) as [ok w]; exact K'.
Qed.

Lemma timely_unix : forall e u, timely (tree u) -> timely (tree (unix_happen u e)).
Proof.
  intros [p c|p|s|t|t|] u H; cbn [unix_happen tree].
  - now apply timely_write.
  - now apply timely_delete.
  - cbn [configure tree]. now apply timely_write.
  - now apply timely_libraries.
  - now apply timely_tests.
  - now apply timely_clean.
Qed.

Lemma timely_unix_history : forall es u, timely (tree u) -> timely (tree (unix_history u es)).
Proof.
  induction es as [|e es IH]; intros u H; [assumption|]. cbn [unix_history fold_left].
  apply IH. now apply timely_unix.
Qed.

(** * As long as the list is there *)

Definition unix_honest (u : unix) : Prop :=
  forall t, mark (tree u) Libraries = Some t ->
    (exists p, In p (prerequisites u) /\ newer (tree u) t p = true) \/
    (forall p, In p (prerequisites u) -> made (tree u) Libraries p = current (tree u) p).

Definition present (u : unix) : Prop :=
  forall p, In p (prerequisites u) -> current (tree u) p <> None.

Lemma newer_write : forall p c w t q, timely w -> (exists x, mark w x = Some t) ->
  newer w t q = true -> newer (write p c w) t q = true.
Proof.
  intros p c w t q (_ & T) (x & M) H. apply T in M. unfold newer, file_at, write in *. cbn [sources file_in].
  rewrite file_remove. destruct (same p q); [apply Z.ltb_lt; lia|exact H].
Qed.

Lemma unix_honest_write : forall p c u, timely (tree u) -> unix_honest u ->
  unix_honest {| tree := write p c (tree u); deps := deps u |}.
Proof.
  intros p c u T H t M. cbn [tree mark write] in M.
  destruct (H t M) as [(q & Q & N)|K].
  - left. exists q. split; [exact Q|]. cbn [tree]. apply newer_write; [assumption|now exists Libraries|assumption].
  - destruct (existsb (same p) (prerequisites u)) eqn:E.
    + apply existsb_exists in E. destruct E as (q & Q & E). apply same_true in E. subst q.
      left. exists p. split; [exact Q|]. cbn [tree].
      unfold newer, file_at, write. cbn [sources file_in]. rewrite same_refl.
      destruct T as (_ & T). apply T in M. apply Z.ltb_lt. lia.
    + right. intros q Q. cbn [tree]. rewrite current_write. cbn [made write].
      destruct (same p q) eqn:S; [|now apply K].
      apply same_true in S. subst q. exfalso. apply not_true_iff_false in E. apply E.
      apply existsb_exists. exists p. split; [exact Q|apply same_refl].
Qed.

Lemma present_write : forall p c u, present u -> present {| tree := write p c (tree u); deps := deps u |}.
Proof.
  intros p c u H q Q. cbn [tree]. rewrite current_write. destruct (same p q); [discriminate|now apply H].
Qed.

Lemma present_missing : forall u, present u -> existsb (missing (tree u)) (prerequisites u) = false.
Proof.
  intros u H. apply not_true_iff_false. intro E. apply existsb_exists in E. destruct E as (p & P & E).
  apply H in P. unfold missing in E. unfold current in P. destruct (file_at (tree u) p); [discriminate|now apply P].
Qed.

Lemma out_of_date_newer : forall u t, mark (tree u) Libraries = Some t ->
  out_of_date u = existsb (newer (tree u) t) (prerequisites u).
Proof. intros u t M. unfold out_of_date. now rewrite M. Qed.

Lemma libraries_honest : forall t u, present u -> unix_honest u ->
  let u' := snd (make_libraries t u) in
  present u' /\ unix_honest u' /\ deps u' = deps u /\ sources (tree u') = sources (tree u).
Proof.
  intros t u P H u'. subst u'. unfold make_libraries. rewrite present_missing by assumption.
  destruct (out_of_date u) eqn:O; [|cbn [snd]; now repeat split].
  destruct t as [|junk]; cbn [set_made snd tree deps].
  - split; [exact P|]. split; [|now split]. intros t M. right. intros p _. cbn [tree made]. now rewrite set_same.
  - split; [exact P|]. split; [|now split]. intros t M. cbn [tree mark] in M. left.
    rewrite (out_of_date_newer u t M) in O. apply existsb_exists in O. exact O.
Qed.

Lemma tests_honest : forall t u, present u -> unix_honest u ->
  let u' := snd (make_tests t u) in
  present u' /\ unix_honest u' /\ deps u' = deps u /\ sources (tree u') = sources (tree u).
Proof.
  intros t u P H u'. subst u'. unfold make_tests.
  destruct (libraries_honest (t Libraries) u P H) as (P1 & H1 & D1 & S1).
  destruct (make_libraries (t Libraries) u) as [[|] u1]; cbn [snd] in *; [|now repeat split].
  destruct (t Tests) as [|junk]; cbn [set_made snd tree deps sources].
  - split; [exact P1|]. split; [|now split]. intros s M. right. intros p _. cbn [tree made]. now rewrite set_same.
  - split; [exact P1|]. split; [|now split]. intros s M. exact (H1 s M).
Qed.

Lemma unix_honest_history : forall es u, Forall only_changed es -> timely (tree u) -> present u -> unix_honest u ->
  let u' := unix_history u es in
  timely (tree u') /\ present u' /\ unix_honest u' /\ deps u' = deps u.
Proof.
  induction es as [|e es IH]; intros u F T P H; [split; [assumption|now repeat split]|].
  apply Forall_cons_iff in F. destruct F as (F1 & F2). cbn [unix_history fold_left].
  pose proof (timely_unix e u T) as T'.
  assert (K : present (unix_happen u e) /\ unix_honest (unix_happen u e) /\ deps (unix_happen u e) = deps u).
  { destruct e as [p c|p|s|t|t|]; try contradiction; cbn [unix_happen].
    - split; [now apply present_write|]. split; [now apply unix_honest_write|reflexivity].
    - destruct (libraries_honest t u P H) as (A & B & C & _). now repeat split.
    - destruct (tests_honest t u P H) as (A & B & C & _). now repeat split. }
  destruct K as (P' & H' & D').
  destruct (IH (unix_happen u e) F2 T' P' H') as (A & B & C & D).
  split; [exact A|]. split; [exact B|]. split; [exact C|].
  etransitivity; [exact D|exact D'].
Qed.

Lemma configured : forall s u, timely (tree u) -> current (tree u) ["packaging.cmake"] <> None ->
  present (configure s u) /\ unix_honest (configure s u).
Proof.
  intros s u (D & T) C. split.
  - intros p P. cbn [configure tree]. rewrite current_write.
    unfold prerequisites in P. cbn [configure deps] in P.
    destruct (same ["config.make"] p) eqn:E; [discriminate|].
    destruct P as [<-|[<-|P]].
    + rewrite same_refl in E. discriminate.
    + exact C.
    + apply filter_In in P. destruct P as (P & _). unfold write in P. cbn [sources map fst] in P.
      destruct P as [<-|P]; [rewrite same_refl in E; discriminate|].
      apply in_map_iff in P. destruct P as ([q f] & Q & P). cbn in Q. subst q.
      apply filter_In in P. destruct P as (P & _).
      unfold current, file_at. now rewrite (in_file_in _ _ _ D P).
  - intros t M. cbn [configure tree write mark] in M. left. exists ["config.make"]. split; [now left|].
    unfold newer, file_at. cbn [configure tree write sources file_in]. rewrite same_refl.
    apply T in M. apply Z.ltb_lt. lia.
Qed.

Lemma make_works : forall u, present u -> unix_honest u ->
  let (ok, u') := make_libraries Work u in
  ok = true /\ forall p, In p (prerequisites u) -> made (tree u') Libraries p = current (tree u') p.
Proof.
  intros u P H. unfold make_libraries. rewrite present_missing by assumption.
  destruct (out_of_date u) eqn:O.
  - cbn [set_made]. split; [reflexivity|]. intros p _. reflexivity.
  - split; [reflexivity|]. intros p Q. destruct (mark (tree u) Libraries) as [t|] eqn:M.
    + destruct (H t M) as [K|K]; [|now apply K].
      rewrite (out_of_date_newer u t M) in O. apply not_true_iff_false in O. exfalso. apply O.
      apply existsb_exists. exact K.
    + unfold out_of_date in O. rewrite M in O. discriminate.
Qed.

Lemma needs_listed : forall v p, In v versions -> In p (needs ["config.make"] v Libraries) ->
  p = ["config.make"] \/ listed p = true.
Proof.
  intros v p V N.
  assert (K : forallb (fun v => forallb (fun p => same p ["config.make"] || listed p)
     (needs ["config.make"] v Libraries)) versions = true) by (vm_compute; reflexivity).
  rewrite forallb_forall in K. specialize (K v V). rewrite forallb_forall in K. specialize (K p N).
  apply orb_true_iff in K. destruct K as [K|K]; [left; now apply same_true|now right].
Qed.

Definition unix_start (l : list source) (t : Z) : unix := {| tree := start l t; deps := None |}.

Theorem makefile_fresh : forall l t0 before settings es v p,
  NoDup (map fst l) -> Forall only_changed es ->
  let u0 := unix_history (unix_start l t0) before in
  current (tree u0) ["packaging.cmake"] <> None ->
  In v versions -> In p (needs ["config.make"] v Libraries) ->
  p = ["config.make"] \/ current (tree u0) p <> None ->
  let (ok, u) := make_libraries Work (unix_history (configure settings u0) es) in
  ok = true /\ made (tree u) Libraries p = current (tree u) p.
Proof.
  intros l t0 before settings es v p N F u0 C V P E.
  assert (T0 : timely (tree u0)).
  { apply timely_unix_history. cbn. now apply start_timely. }
  destruct (configured settings u0 T0 C) as (P1 & H1).
  assert (T1 : timely (tree (configure settings u0))) by (apply (timely_unix (Configure settings)); assumption).
  destruct (unix_honest_history es (configure settings u0) F T1 P1 H1) as (T2 & P2 & H2 & D2).
  pose proof (make_works _ P2 H2) as W.
  destruct (make_libraries Work (unix_history (configure settings u0) es)) as [ok u].
  destruct W as (W1 & W2). split; [assumption|]. apply W2.
  unfold prerequisites. rewrite D2. cbn [configure deps].
  destruct (needs_listed v p V P) as [->|L]; [now left|].
  destruct E as [->|E]; [now left|]. right. right. apply filter_In. split; [|exact L].
  unfold write. cbn [sources map fst].
  destruct (same ["config.make"] p) eqn:S; [left; now apply same_true|right].
  unfold current, file_at in E. destruct (file_in (sources (tree u0)) p) as [f|] eqn:I; [|now contradiction E].
  apply in_map_iff. exists (p, f). split; [reflexivity|]. apply filter_In. split; [now apply file_in_in|].
  cbn [fst]. now rewrite same_sym, S.
Qed.

(** * Without the list *)

Definition blind (u : unix) : Prop :=
  deps u = None /\
  exists c s t, file_at (tree u) ["config.make"] = Some (c, s) /\
                mark (tree u) Libraries = Some t /\ (s <= t)%Z.

Lemma blind_make : forall t u, blind u -> make_libraries t u = (true, u).
Proof.
  intros t u (D & c & s & m & F & M & L). unfold make_libraries, prerequisites. rewrite D.
  cbn [existsb]. unfold missing at 1. rewrite F. cbn [orb].
  rewrite (out_of_date_newer u m M). unfold prerequisites. rewrite D. cbn [existsb].
  unfold newer. rewrite F. destruct (Z.ltb m s) eqn:E; [apply Z.ltb_lt in E; lia|reflexivity].
Qed.

Lemma blind_happen : forall e u, settings_kept e -> blind u ->
  blind (unix_happen u e) /\ (forall p, made (tree (unix_happen u e)) Libraries p = made (tree u) Libraries p).
Proof.
  intros [p c|p|s|t|t|] u K B; try contradiction; cbn [unix_happen settings_kept] in *.
  - split; [|reflexivity]. destruct B as (D & c0 & s & m & F & M & L). split; [exact D|].
    exists c0, s, m. split; [|now split]. cbn [tree]. unfold file_at, write. cbn [sources file_in].
    destruct (same p ["config.make"]) eqn:E; [apply same_true in E; contradiction|]. now rewrite file_remove, E.
  - split; [|reflexivity]. destruct B as (D & c0 & s & m & F & M & L). split; [exact D|].
    exists c0, s, m. split; [|now split]. cbn [tree]. unfold file_at, delete. cbn [sources].
    rewrite file_remove. destruct (same p ["config.make"]) eqn:E; [apply same_true in E; contradiction|]. exact F.
  - rewrite blind_make by assumption. now split.
Qed.

Lemma blind_history : forall es u, Forall settings_kept es -> blind u ->
  blind (unix_history u es) /\ forall p, made (tree (unix_history u es)) Libraries p = made (tree u) Libraries p.
Proof.
  induction es as [|e es IH]; intros u F B; [now split|].
  apply Forall_cons_iff in F. destruct F as (F1 & F2). cbn [unix_history fold_left].
  destruct (blind_happen e u F1 B) as (B' & M). destruct (IH (unix_happen u e) F2 B') as (B'' & M').
  split; [exact B''|]. intro p. etransitivity; [apply M'|apply M].
Qed.

Theorem makefile_blind : forall u es,
  (exists c s, file_at (tree u) ["config.make"] = Some (c, s) /\ (s <= now (tree u))%Z) ->
  Forall settings_kept es ->
  let u1 := unix_history u [MakeClean; MakeAll Work] in
  (forall p, made (tree u1) Libraries p = current (tree u) p) /\
  (forall p, made (tree (unix_history u1 es)) Libraries p = current (tree u) p).
Proof.
  intros u es (c & s & F & L) K u1.
  assert (B : blind u1 /\ forall p, made (tree u1) Libraries p = current (tree u) p).
  { subst u1. cbn [unix_history fold_left unix_happen]. unfold make_libraries, prerequisites.
    cbn [empty_build deps tree existsb]. unfold missing.
    change (file_at (clean_up (tree u)) ["config.make"]) with (file_at (tree u) ["config.make"]). rewrite F.
    cbn [orb]. unfold out_of_date. cbn [empty_build tree mark clean_up].
    cbn [set_made snd tree deps]. split.
    - split; [reflexivity|]. exists c, s. eexists. split; [exact F|]. split; [reflexivity|]. cbn. lia.
    - intro p. cbn [made]. rewrite set_same. reflexivity. }
  destruct B as (B & M). split; [exact M|]. intro p.
  destruct (blind_history es u1 K B) as (_ & M'). rewrite M'. apply M.
Qed.

(** * The tests are always of what is there *)

Theorem makefile_tests : forall t u, fst (make_tests t u) = true ->
  forall p, made (tree (snd (make_tests t u))) Tests p = current (tree (snd (make_tests t u))) p.
Proof.
  intros t u. unfold make_tests. destruct (make_libraries (t Libraries) u) as [[|] u1]; [|discriminate].
  destruct (t Tests) as [|junk]; cbn; [|discriminate]. intros _ p. reflexivity.
Qed.
