(** packaging.cmake, and all of CMakeLists.txt. *)
From Coq Require Import ZArith List Bool String Ascii Lia.
From Verif Require Import Gen.TextLists Model.Make Model.Cmake Model.Lists Model.ListsWanted Proof.ListsRun Proof.ListsParts Proof.ListsBuild.
Import ListNotations.
Open Scope string_scope.
Open Scope list_scope.

Section Pack.
Variable w : world.
Hypothesis C : clean w.
Notation change := (change w).
Let f : string -> option (state -> outcome) := fun _ => None.

Ltac plain G v := rewrite (itself_elements w v G); cbn;
  repeat (match goal with |- context [String.eqb v ?x] => rewrite (itself_not w v x G ltac:(cbn; tauto)) end; cbn);
  rewrite ?(itself_operator w v G); cbn.

Definition pack1 : block := Eval vm_compute in first 2 packaging_block.
Definition pack2 : block := Eval vm_compute in first 1 (beyond 2 packaging_block).
Definition pack3 : block := Eval vm_compute in beyond 3 packaging_block.

Definition asked1 : list request :=
  [("install", words ["TARGETS"; "ansakString"; "LIBRARY"; "DESTINATION"; "lib/"]);
   ("install", words ["FILES"; "interface/string.hxx"; "interface/string_splitjoin.hxx"; "interface/string_trim.hxx"; "DESTINATION"; "include/ansak"])].

Lemma run_pack1 : forall s, existsb (is_static "ansakString") (asked s) = true ->
  if before_release (release w) (3, 14) then run w f pack1 s = Fatal
  else exists t, run w f pack1 s = Went t /\ change [] asked1 s t.
Proof.
  intros s S. unfold pack1. cmd idtac. unfold installs. cbn. rewrite S. cbn.
  destruct (before_release (release w) (3, 14)); cbn; [reflexivity|].
  cmd idtac. cbn. rewrite s_nil. eexists. split; [reflexivity|]. changed.
Qed.

Definition asked2 : list request :=
  if linux w then
    [("find_program", words ["LSB_RELEASE_EXEC"; "lsb_release"]);
     ("execute_process",
       words ["COMMAND"; "/usr/bin/sh"; "/usr/bin/lsb_release"; "-is"; "OUTPUT_VARIABLE"; "DISTRO"; "OUTPUT_STRIP_TRAILING_WHITESPACE"])]
  else [].

Definition set2 : list string :=
  ["DISTRO"; "CPACK_GENERATOR"; "CPACK_RPM_COMPONENT_INSTALL"; "CPACK_RPM_PACKAGE_NAME"; "CPACK_RPM_FILE_NAME"; "CPACK_DEB_COMPONENT_INSTALL";
   "CPACK_DEBIAN_PACKAGE_NAME"; "CPACK_DEBIAN_PACKAGE_MAINTAINER"; "CPACK_DEBIAN_PACKAGE_DESCRIPTION"; "CPACK_DEBIAN_PACKAGE_SECTION";
   "CPACK_DEBIAN_PACKAGE_HOMEPAGE"; "CPACK_DEBIAN_PACKAGE_DEPENDS"].

Lemma system_linux : (match given w "CMAKE_SYSTEM_NAME" with Some v => v | None => "CMAKE_SYSTEM_NAME" end =? "Linux") = linux w.
Proof. unfold linux, setting. now destruct (given w "CMAKE_SYSTEM_NAME"). Qed.

Lemma run_pack2 : forall s v, kept w s -> value w s "ANSAK_UNICODE_SUPPORT" = Some v -> value w s "CPACK_GENERATOR" = given w "CPACK_GENERATOR" ->
  exists t, run w f pack2 s = Went t /\ change set2 asked2 s t /\ value w t "CPACK_GENERATOR" = package_kinds w /\
    (linux w = true -> existsb (String.eqb (distro w)) ["CentOS"; "Fedora"; "RedHat"] = true ->
       value w t "CPACK_RPM_PACKAGE_NAME" = Some ("ansakString-" ++ v)%string).
Proof.
  intros s v K U P. unfold pack2, asked2, package_kinds.
  cond (linux w) ltac:(base K; apply f_equal; exact system_linux).
  destruct (linux w) eqn:L.
  - pose proof (cl_distro w C L) as G.
    destruct (existsb (String.eqb (distro w)) ["CentOS"; "Fedora"; "RedHat"]) eqn:R; cbn in R; rewrite ?orb_false_r in R; cmd idtac; cmd idtac;
    match goal with |- context [run ?w ?f (If ?c ?x ?y ?rest) ?st] =>
      assert (K' : kept w st) by (apply kept_ask, kept_put; [reflexivity|]; now apply kept_ask) end.
    + cond true ltac:(vals; cbn; plain G (distro w); rewrite (itself_value w _ _ G K'); change (operator (true, "CentOS")) with false;
            change (operator (true, "Fedora")) with false; change (operator (true, "RedHat")) with false; cbn; rewrite ?orb_false_r; apply f_equal; exact R).
      clear K'. cmd idtac. cmd idtac. cmd ltac:(vals; rewrite U). cmd ltac:(vals; rewrite U). rewrite !s_nil. cbn. rewrite s_nil.
      eexists. split; [reflexivity|]. split; [changed|]. split; [|intros _ _]; vals; reflexivity.
    + cond false ltac:(vals; cbn; plain G (distro w); rewrite (itself_value w _ _ G K'); change (operator (true, "CentOS")) with false;
            change (operator (true, "Fedora")) with false; change (operator (true, "RedHat")) with false; cbn; rewrite ?orb_false_r; apply f_equal; exact R).
      clear K'. do 8 cmd ltac:(vals; rewrite ?U). rewrite !s_nil. cbn. rewrite ?s_nil. cbn. rewrite ?s_nil.
      eexists. split; [reflexivity|]. split; [changed|]. split; [|intros _ X; discriminate]; vals; reflexivity.
  - cond (is_on w "WIN32") ltac:(base K). destruct (is_on w "WIN32").
    + cmd idtac. rewrite !s_nil. cbn. rewrite !s_nil. cbn. rewrite ?s_nil. eexists. split; [reflexivity|]. split; [changed|]. split; [|discriminate]. vals. reflexivity.
    + cond (is_on w "APPLE") ltac:(base K). destruct (is_on w "APPLE").
      * cmd idtac. rewrite !s_nil. cbn. rewrite !s_nil. cbn. rewrite ?s_nil. cbn. rewrite ?s_nil. eexists. split; [reflexivity|]. split; [changed|]. split; [|discriminate]. vals. reflexivity.
      * rewrite !s_nil. cbn. rewrite !s_nil. cbn. rewrite ?s_nil. eexists. split; [reflexivity|]. split; [changed|]. split; [|discriminate]. exact P.
Qed.

Definition set3 : list string :=
  ["CPACK_PACKAGE_NAME"; "CPACK_PACKAGE_DESCRIPTION_SUMMARY"; "CPACK_PACKAGE_VENDOR"; "CPACK_PACKAGE_VERSION_MAJOR"; "CPACK_PACKAGE_VERSION_MINOR";
   "CPACK_PACKAGE_VERSION_PATCH"; "CPACK_VERBATIM_VARIABLES"; "CPACK_RESOURCE_FILE_LICENSE"; "CPACK_PACKAGE_ICON"; "CPACK_DEBIAN_PACKAGE_NAME";
   "CPACK_DEBIAN_PACKAGE_MAINTAINER"; "CPACK_DEBIAN_PACKAGE_DESCRIPTION"; "CPACK_DEBIAN_PACKAGE_SECTION"; "CPACK_DEBIAN_PACKAGE_HOMEPAGE";
   "CPACK_CYGWIN_PATCH_NUMBER"].

Lemma run_pack3 : forall s v, kept w s -> value w s "ANSAK_UNICODE_SUPPORT" = Some v ->
  value w s "CMAKE_PROJECT_VERSION_MAJOR" = Some "2" -> value w s "CMAKE_PROJECT_VERSION_MINOR" = Some "0" -> value w s "CMAKE_PROJECT_VERSION_PATCH" = Some "1" ->
  exists t, run w f pack3 s = Went t /\ change set3 [("include", words ["CPack"])] s t /\
    value w t "CPACK_PACKAGE_NAME" = Some ("ansakString-u" ++ v)%string /\ value w t "CPACK_DEBIAN_PACKAGE_NAME" = Some ("ansakString-" ++ v)%string /\
    value w t "CPACK_PACKAGE_VERSION_MAJOR" = Some "2" /\ value w t "CPACK_PACKAGE_VERSION_MINOR" = Some "0" /\ value w t "CPACK_PACKAGE_VERSION_PATCH" = Some "1" /\
    value w t "CPACK_RESOURCE_FILE_LICENSE" = Some (setting w "CMAKE_SOURCE_DIR" ++ "/NSIS/ansak-library-bsd-2clause.txt")%string /\
    value w t "CPACK_PACKAGE_ICON" = Some (setting w "CMAKE_SOURCE_DIR" ++ "/NSIS/ansak.ico")%string.
Proof.
  intros s v K U V1 V2 V3. unfold pack3.
  do 16 cmd ltac:(vals; rewrite ?U, ?V1, ?V2, ?V3; base K; cbn; change (elements "2") with ["2"]; change (elements "0") with ["0"]; change (elements "1") with ["1"]; cbn).
  rewrite s_nil. eexists. split; [reflexivity|]. split; [changed|]. repeat split; vals; reflexivity.
Qed.

Lemma change_trans : forall l r l' r' s t u, change l r s t -> change l' r' t u -> change (l ++ l') (r ++ r') s u.
Proof.
  intros l r l' r' s t u [V A] [V' A']. constructor.
  - intros x X. rewrite existsb_app in X. apply orb_false_iff in X as (X & X'). now rewrite V', V.
  - now rewrite A', A, app_assoc.
Qed.

Lemma run_pack : forall s v, kept w s -> value w s "ANSAK_UNICODE_SUPPORT" = Some v -> value w s "CPACK_GENERATOR" = given w "CPACK_GENERATOR" ->
  existsb (is_static "ansakString") (asked s) = true ->
  (before_release (release w) (3, 14) = false -> value w s "CMAKE_PROJECT_VERSION_MAJOR" = Some "2" /\
     value w s "CMAKE_PROJECT_VERSION_MINOR" = Some "0" /\ value w s "CMAKE_PROJECT_VERSION_PATCH" = Some "1") ->
  if before_release (release w) (3, 14) then run w f packaging_block s = Fatal
  else exists t, run w f packaging_block s = Went t /\ change (set2 ++ set3) (asked1 ++ asked2 ++ [("include", words ["CPack"])]) s t /\ packaged w v t.
Proof.
  intros s v K U P S V. rewrite (run_parts w f 2). change (first 2 packaging_block) with pack1.
  pose proof (run_pack1 s S) as R1. destruct (before_release (release w) (3, 14)) eqn:B; [now rewrite R1|].
  destruct R1 as (s1 & R1 & H1). rewrite R1. cbn [bind].
  assert (K1 : kept w s1) by (refine (change_kept w _ _ s s1 _ H1 K); reflexivity).
  rewrite (run_parts w f 1 (beyond 2 packaging_block)). change (first 1 (beyond 2 packaging_block)) with pack2.
  change (beyond 1 (beyond 2 packaging_block)) with pack3.
  destruct (run_pack2 s1 v K1) as (s2 & R2 & H2 & G2 & N2).
  { rewrite (ch_values w _ _ _ _ H1) by reflexivity. exact U. }
  { rewrite (ch_values w _ _ _ _ H1) by reflexivity. exact P. }
  rewrite R2. cbn [bind].
  assert (K2 : kept w s2) by (refine (change_kept w _ _ s1 s2 _ H2 K1); reflexivity).
  destruct (V eq_refl) as (V1 & V2 & V3).
  destruct (run_pack3 s2 v K2) as (s3 & R3 & H3 & D).
  1-4: rewrite (ch_values w _ _ _ _ H2) by reflexivity; rewrite (ch_values w _ _ _ _ H1) by reflexivity; assumption.
  exists s3. split; [exact R3|]. split.
  - exact (change_trans _ _ _ _ _ _ _ H1 (change_trans _ _ _ _ _ _ _ H2 H3)).
  - unfold packaged. rewrite !(ch_values w _ _ _ _ H3 "CPACK_GENERATOR") by reflexivity. rewrite (ch_values w _ _ _ _ H3 "CPACK_RPM_PACKAGE_NAME") by reflexivity.
    tauto.
Qed.
End Pack.
