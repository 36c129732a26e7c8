(** C153: what the build depends on and what it leaves alone. *)
From Coq Require Import ZArith List Bool String Ascii Lia.
From Verif Require Import Gen.TextLists Model.Make Model.Lists Model.ListsWanted Spec.ListsInputs.
From Verif Require Import Proof.ListsRun Proof.ListsAll Proof.ListsWorlds.
Import ListNotations.
Open Scope string_scope.
Open Scope list_scope.

Theorem others_kept : forall w t, clean w -> run_lists CMakeLists_txt packaging_cmake w = Went t ->
  forall x, ~ In x own -> value w t x = given w x.
Proof.
  intros w t C R x N. pose proof (lists_run_kept w C) as L. destruct (fails w); [rewrite R in L; discriminate|].
  destruct L as (t' & R' & _ & _ & _ & K). rewrite R in R'. injection R' as <-. apply K.
  destruct (existsb (String.eqb x) own) eqn:E; [|reflexivity]. exfalso. apply N. now apply among.
Qed.

Theorem same_inputs : forall w w', clean w -> clean w' -> (forall x, In x inputs -> setting w x = setting w' x) -> release w = release w' ->
  defined w "setup_target_for_coverage" = defined w' "setup_target_for_coverage" ->
  match run_lists CMakeLists_txt packaging_cmake w, run_lists CMakeLists_txt packaging_cmake w' with
  | Went t, Went t' => asked t = asked t'
  | Fatal, Fatal => True
  | _, _ => False
  end.
Proof.
  intros w w' C C' S R D.
  assert (E : fails w = fails w' /\ all_asked w = all_asked w').
  { assert (N : forall x, existsb (String.eqb x) inputs = true -> setting w x = setting w' x) by (intros x X; apply S; now apply among).
    assert (O : root w = root w') by (unfold root; rewrite !N by reflexivity; reflexivity).
    assert (K : build_kind w = build_kind w') by (unfold build_kind, is_on; rewrite !N by reflexivity; reflexivity).
    assert (V : coverage w = coverage w') by (unfold coverage; now rewrite K).
    assert (G : generator w = generator w') by (unfold generator; now apply N).
    assert (T : tested w = tested w') by (unfold tested, is_on, visual, sorts_before_2015; rewrite G, V, O, !N by reflexivity; reflexivity).
    assert (U : unicode w = unicode w') by (unfold unicode; rewrite !N by reflexivity; reflexivity).
    split; [unfold fails, visual; rewrite R, D, G, V, O; reflexivity|].
    unfold all_asked. f_equal; [unfold submodules_asked; now rewrite O, K, T, V|]. f_equal.
    { unfold options_asked, is_on, gnu. rewrite !N by reflexivity. reflexivity. }
    f_equal. { unfold library_asked, is_on, gnu, modern. rewrite U, !N by reflexivity. reflexivity. }
    f_equal.
    { unfold tests_asked, copied, is_on, made_file, data_file. rewrite T, V, U, !N by reflexivity. reflexivity. }
    unfold packages_asked, linux. rewrite O, !N by reflexivity. reflexivity. }
  destruct E as (F & A). pose proof (lists_run w C) as L. pose proof (lists_run w' C') as L'. rewrite F in L. destruct (fails w').
  - rewrite L, L'. exact I.
  - destruct L as (t & -> & B & _), L' as (t' & -> & B' & _). now rewrite B, B', A.
Qed.

(** Fedora and Debian differ in their packages only. *)
Definition fedora_12 : world := make_world (linux_settings "/s" "Release") (Some "12") (3, 25) "Fedora".
Lemma fedora_12_clean : clean fedora_12. Proof. is_clean. Qed.

Lemma fedora_debian : clean fedora_12 /\ clean debian /\ (forall x, In x inputs -> setting fedora_12 x = setting debian x) /\
  release fedora_12 = release debian /\ distro fedora_12 <> distro debian.
Proof.
  split; [exact fedora_12_clean|]. split; [exact debian_clean|]. split; [intros x _; reflexivity|]. split; [reflexivity|discriminate].
Qed.
