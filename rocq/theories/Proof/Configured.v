(** From the options of configure to the programs make runs *)
From Coq Require Import ZArith List Bool String Ascii.
From Verif Require Import Gen.TextMakefile Model.Makefile Spec.Makefile Proof.Makefile.
From Verif Require Model.Configure Spec.Configure Proof.Configure.
Import ListNotations.
Open Scope string_scope.
Open Scope list_scope.

(** What /repo/Makefile 49 includes: the variables as config.make has them *)
Definition read (w : Model.Configure.surroundings) (v : Model.Configure.values) : settings :=
  fun k => Model.Configure.value_of k (Model.Configure.config_make w v).

Lemma plain_chars : forall c, plain_char c = true -> Model.Configure.blank c = false /\ c <> "#"%char.
Proof.
  intros c H. unfold plain_char in H. apply existsb_exists in H. destruct H as (d & I & E).
  apply Ascii.eqb_eq in E. subst d.
  assert (A : forallb (fun c => negb (Model.Configure.blank c) && negb (Ascii.eqb c "#")) letters = true) by reflexivity.
  rewrite forallb_forall in A. specialize (A c I). rewrite andb_true_iff, !negb_true_iff, Ascii.eqb_neq in A. exact A.
Qed.

Lemma plain_word : forall s, plain s -> Spec.Configure.word s.
Proof.
  intros s P. apply Proof.Configure.word_checked. apply forallb_forall. intros c I.
  destruct (plain_chars c (P c I)) as (B & N). rewrite B. apply Ascii.eqb_neq in N. now rewrite N.
Qed.

Lemma not_defined : forall k k' X, In k Proof.Configure.keys -> In k' ["CXXSELECT"; "CONFIG_SELECT"; "C_SELECT"] ->
  Model.Configure.defines k' (append k (append " = " X)) = None /\ Model.Configure.defines k' (append k " =") = None.
Proof.
  intros k k' X I I'. cbn in I, I'.
  repeat (destruct I as [<-|I]; [repeat (destruct I' as [<-|I']; [split; reflexivity|]); destruct I'|]). destruct I.
Qed.

Lemma no_line : forall k k' s, In k Proof.Configure.keys -> In k' ["CXXSELECT"; "CONFIG_SELECT"; "C_SELECT"] ->
  Model.Configure.defines k' (Model.Configure.line k s) = None.
Proof.
  intros k k' s I I'. unfold Model.Configure.line, Model.Configure.echo. destruct (Model.Configure.fields s) as [|f l].
  - exact (proj2 (not_defined k k' "" I I')).
  - exact (proj1 (not_defined k k' (String.concat " " (f :: l)) I I')).
Qed.

Lemma unread_lines : forall k' kvs, In k' ["CXXSELECT"; "CONFIG_SELECT"; "C_SELECT"] -> incl (map fst kvs) Proof.Configure.keys ->
  Model.Configure.value_of k' (map (fun e => Model.Configure.line (fst e) (snd e)) kvs) = "".
Proof.
  intros k' kvs I'. induction kvs as [|(k, s) kvs IH]; intro I; [reflexivity|].
  cbn [map fst snd Model.Configure.value_of].
  rewrite no_line; [|apply I; now left|assumption].
  rewrite IH by (intros x X; apply I; now right). now destruct (existsb _ _).
Qed.

Lemma unread : forall w v k', In k' ["CXXSELECT"; "CONFIG_SELECT"; "C_SELECT"] -> read w v k' = "".
Proof.
  intros w v k' I. unfold read. rewrite Proof.Configure.table_lines. apply unread_lines; [assumption|].
  rewrite Proof.Configure.table_keys. now intros x.
Qed.

Lemma plain_checked : forall s, forallb plain_char (list_ascii_of_string s) = true -> plain s.
Proof. intros s H c I. rewrite forallb_forall in H. now apply H. Qed.

Lemma quotable_checked : forall s, forallb (fun c => plain_char c || Ascii.eqb c " ") (list_ascii_of_string s) = true -> quotable s.
Proof.
  intros s H c I. rewrite forallb_forall in H. specialize (H c I). apply orb_true_iff in H.
  destruct H as [H|H]; [now left|]. right. now apply Ascii.eqb_eq.
Qed.

Lemma read_all : forall w v, plain (Model.Configure.compiler v) -> plain (Model.Configure.unicode_version v) ->
  read w v "CXX" = Model.Configure.compiler v /\ read w v "UNICODE_VERSION" = Model.Configure.unicode_version v /\
  read w v "CONFIG" = Model.Configure.config_of w /\ read w v "GENERATOR" = Model.Configure.generator_of w /\
  read w v "BUILDS_DEB" = Model.Configure.builds w (Model.Configure.has_dpkg w) /\
  read w v "BUILDS_RPM" = Model.Configure.builds w (Model.Configure.has_rpm w) /\ settled (read w v).
Proof.
  intros w v C U.
  destruct (Proof.Configure.make_reads w v) as (_ & _ & R1 & R2 & R3 & R4 & R5 & R6 & _).
  rewrite Proof.Configure.shown_word in R1, R2 by (now apply plain_word).
  assert (D : forall b, plain (Model.Configure.builds w b)).
  { intro b. unfold Model.Configure.builds. destruct (Model.Configure.system_of w), b; now apply plain_checked. }
  unfold settled.
  assert (S : forall k', In k' ["CXXSELECT"; "CONFIG_SELECT"; "C_SELECT"] -> read w v k' = "") by (intro; apply unread).
  rewrite (S "CXXSELECT"), (S "CONFIG_SELECT"), (S "C_SELECT") by (cbn; auto). clear S. unfold read.
  rewrite R1, R2, R3, R4, R5, R6. repeat apply conj; auto.
  - unfold Model.Configure.config_of. destruct (Model.Configure.apple w); now apply plain_checked.
  - unfold Model.Configure.generator_of. destruct (Model.Configure.apple w); now apply quotable_checked.
Qed.

Lemma compiler_there : forall w args v, Model.Configure.settle w args = Model.Configure.Go v -> String.eqb (Model.Configure.compiler v) "" = false.
Proof.
  intros w args v H. unfold Model.Configure.settle in H.
  destruct (Model.Configure.options args _) as [c|u]; [discriminate|].
  destruct (Model.Configure.has_cmake w); [|discriminate]. injection H as <-. cbn [Model.Configure.compiler].
  unfold Model.Configure.or_else. destruct (String.eqb (Model.Configure.compiler u) "") eqn:E; [|assumption].
  unfold Model.Configure.def_cxx. now destruct (Model.Configure.system_of w).
Qed.

(** The cmake that configure asked for *)
Definition asked (generator : string) (v : Model.Configure.values) : program :=
  ("build", [("CXX=" ++ Model.Configure.compiler v)%string; "cmake"; "../";
             ("-DANSAK_UNICODE_SUPPORT=" ++ Model.Configure.unicode_version v)%string; "-G"; generator]).

Theorem elsewhere : forall w args v, Model.Configure.settle w args = Model.Configure.Go v ->
  plain (Model.Configure.compiler v) -> plain (Model.Configure.unicode_version v) -> Model.Configure.system_of w <> Model.Configure.Darwin ->
  make Makefile (read w v) "build/all.touch" =
    Some [asked "Unix Makefiles" v; (".", ["cmake"; "--build"; "build"; "--target"; "ansakString"]); (".", ["touch"; "build/all.touch"])] /\
  make Makefile (read w v) "build/test.touch" =
    Some [(".", ["cmake"; "--build"; "build"; "--target"; "ansakStringTest"]); ("build", ["ctest"; "."; ""]); (".", ["touch"; "build/test.touch"])].
Proof.
  intros w args v G C U N. destruct (read_all w v C U) as (R1 & R2 & R3 & R4 & _ & _ & S).
  assert (A : Model.Configure.apple w = false).
  { unfold Model.Configure.apple. now destruct (Model.Configure.system_of w). }
  unfold Model.Configure.config_of in R3. unfold Model.Configure.generator_of in R4. rewrite A in R3, R4.
  rewrite build_right, test_empty by assumption.
  unfold configuring, building, unless_empty. rewrite R1, R2, R3, R4, (compiler_there _ _ _ G). split; reflexivity.
Qed.

Theorem on_darwin : forall w args v, Model.Configure.settle w args = Model.Configure.Go v ->
  plain (Model.Configure.compiler v) -> plain (Model.Configure.unicode_version v) -> Model.Configure.system_of w = Model.Configure.Darwin ->
  make Makefile (read w v) "build/all.touch" =
    Some [asked "Xcode" v; (".", ["cmake"; "--build"; "build"; "--config Release"; "--target"; "ansakString"]); (".", ["touch"; "build/all.touch"])] /\
  make Makefile (read w v) "build/test.touch" =
    Some [(".", ["cmake"; "--build"; "build"; "--config Release"; "--target"; "ansakStringTest"]); ("build", ["ctest"; "."; "-C"; "Release"]); (".", ["touch"; "build/test.touch"])].
Proof.
  intros w args v G C U N. destruct (read_all w v C U) as (R1 & R2 & R3 & R4 & _ & _ & S).
  assert (A : Model.Configure.apple w = true) by (unfold Model.Configure.apple; now rewrite N).
  unfold Model.Configure.config_of in R3. unfold Model.Configure.generator_of in R4. rewrite A in R3, R4.
  rewrite config_right, test_right by (try assumption; rewrite R3; discriminate).
  unfold configuring, testing, unless_empty. rewrite R1, R2, R3, R4, (compiler_there _ _ _ G). split; reflexivity.
Qed.

Theorem packages : forall w v, plain (Model.Configure.compiler v) -> plain (Model.Configure.unicode_version v) ->
  (make Makefile (read w v) "rpm" = Some [("build", ["cpack"; "."; "-G"; "rpm"])] <->
     Model.Configure.system_of w = Model.Configure.Other /\ Model.Configure.has_rpm w = true) /\
  (make Makefile (read w v) "deb" = Some [("build", ["cpack"; "."; "-G"; "deb"])] <->
     Model.Configure.system_of w = Model.Configure.Other /\ Model.Configure.has_dpkg w = true) /\
  (make Makefile (read w v) "rpm" = Some [] \/ make Makefile (read w v) "rpm" = Some [("build", ["cpack"; "."; "-G"; "rpm"])]) /\
  (make Makefile (read w v) "deb" = Some [] \/ make Makefile (read w v) "deb" = Some [("build", ["cpack"; "."; "-G"; "deb"])]).
Proof.
  intros w v C U. destruct (read_all w v C U) as (_ & _ & _ & _ & R5 & R6 & S).
  rewrite rpm_run, deb_run by assumption. rewrite R5, R6. unfold Model.Configure.builds.
  destruct (Model.Configure.system_of w), (Model.Configure.has_rpm w), (Model.Configure.has_dpkg w); cbn;
    repeat split; intros; try discriminate; auto; match goal with H : _ /\ _ |- _ => destruct H; discriminate end.
Qed.

Definition mac : Model.Configure.surroundings :=
  Model.Configure.Build_surroundings "Darwin" true false false false "/Users/me" "" "" "" "".

Lemma mac_goes : exists w v p, Model.Configure.settle w [] = Model.Configure.Go v /\ plain (Model.Configure.compiler v) /\
  plain (Model.Configure.unicode_version v) /\ make Makefile (read w v) "build/all.touch" = Some p /\
  ~ In (".", ["cmake"; "--build"; "build"; "--config"; "Release"; "--target"; "ansakString"]) p /\ read w v "CONFIG" = "Release".
Proof.
  set (v := Model.Configure.Build_values "/Users/me" "clang++" "16").
  assert (G : Model.Configure.settle mac [] = Model.Configure.Go v) by reflexivity.
  assert (C : plain (Model.Configure.compiler v)) by (now apply plain_checked).
  assert (U : plain (Model.Configure.unicode_version v)) by (now apply plain_checked).
  pose proof (proj1 (on_darwin mac [] v G C U eq_refl)) as M.
  exists mac, v. eexists. split; [exact G|]. split; [exact C|]. split; [exact U|]. split; [exact M|].
  split; [|reflexivity]. unfold asked. cbn [In]. intros [H|[H|[H|H]]]; try discriminate. exact H.
Qed.
