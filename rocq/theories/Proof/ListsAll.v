(** The text of CMakeLists.txt and packaging.cmake, run as it stands. *)
From Coq Require Import ZArith List Bool String Ascii Lia.
From Verif Require Import Gen.TextLists Model.Make Model.Cmake Model.Lists Model.ListsWanted.
From Verif Require Import Proof.ListsRun Proof.ListsParts Proof.ListsBuild Proof.ListsPack.
Import ListNotations.
Open Scope string_scope.
Open Scope list_scope.

Lemma no_coverage_module : forall l, (forall r, In r l -> fst r <> "include") -> existsb includes_coverage l = false.
Proof.
  induction l as [|r l IH]; intro N; [reflexivity|]. cbn. rewrite IH by (intros; apply N; now right). unfold includes_coverage.
  destruct (String.eqb_spec (fst r) "include") as [e|]; [|reflexivity]. destruct (N r (or_introl eq_refl) e).
Qed.

Lemma coverage_module : forall w, existsb includes_coverage (submodules_asked w) = root w && coverage w && tested w.
Proof.
  intro w. unfold submodules_asked. destruct (root w); [|reflexivity]. destruct (build_kind w =? "asan"), (tested w), (coverage w); reflexivity.
Qed.

Lemma options_no_module : forall w, existsb includes_coverage (options_asked w) = false.
Proof.
  intro w. apply no_coverage_module. intros r I. unfold options_asked in I.
  destruct (is_on w "UNIX"); [|destruct I]. destruct (is_on w "COVERAGE"), (gnu w); cbn in I; intuition (subst; discriminate).
Qed.

Lemma library_no_module : forall w, existsb includes_coverage (library_asked w) = false.
Proof.
  intro w. apply no_coverage_module. intros r I. unfold library_asked in I.
  destruct (is_on w "UNIX" && (negb (gnu w) || modern w)); cbn in I; intuition (subst; discriminate).
Qed.

Lemma release_grows : forall r, before_release r (3, 14) = false -> before_release r (3, 12) = false /\ before_release r (3, 10) = false.
Proof.
  intros (a, b). unfold before_release. cbn [fst snd]. rewrite !orb_false_iff, !andb_false_iff, !Nat.ltb_ge, !Nat.eqb_neq. lia.
Qed.

Section All.
Variable w : world.
Hypothesis C : clean w.

Ltac back := repeat match goal with H : change w ?l ?r ?a ?b |- context [value w ?b ?x] => rewrite (ch_values w l r a b H x eq_refl) end.

Theorem lists_run_kept :
  if fails w then run_lists CMakeLists_txt packaging_cmake w = Fatal
  else exists t, run_lists CMakeLists_txt packaging_cmake w = Went t /\ asked t = all_asked w /\ standard_11 w t /\
         (root w = true -> packaged w (unicode w) t) /\ kept w t.
Proof.
  unfold run_lists. rewrite lists_read, packaging_read. set (f := fun x : string => if x =? "packaging.cmake" then _ else None).
  unfold fails. rewrite (run_parts w f 2 lists_block). change (first 2 lists_block) with part1.
  destruct (before_release (release w) (3, 10)) eqn:B10; cbn [orb]; [now rewrite run1_old|].
  destruct (run1 w f B10) as (s1 & R1 & K1 & A1 & D1 & E1 & U1 & G1 & V1). rewrite R1. clear R1. cbn [bind].
  rewrite (run_parts w f 3). change (first 3 (beyond 2 lists_block)) with part2.
  destruct (run2 w f s1 K1) as (s2 & R2 & H2 & O2). rewrite R2. clear R2. cbn [bind].
  assert (K2 : kept w s2) by (refine (change_kept w _ _ _ _ _ H2 K1); reflexivity).
  rewrite (run_parts w f 2). change (first 2 (beyond 3 (beyond 2 lists_block))) with part3.
  destruct (run3 w f s2 K2 O2) as (s3 & R3 & H3 & T3). rewrite R3. clear R3. cbn [bind].
  assert (K3 : kept w s3) by (refine (change_kept w _ _ _ _ _ H3 K2); reflexivity).
  rewrite (run_parts w f 2). change (first 2 (beyond 2 (beyond 3 (beyond 2 lists_block)))) with part4.
  destruct (run4 w f s3 K3) as (s4 & R4 & H4 & T4). rewrite R4. clear R4. cbn [bind].
  assert (K4 : kept w s4) by (refine (change_kept w _ _ _ _ _ H4 K3); reflexivity).
  change (beyond 2 (beyond 2 (beyond 3 (beyond 2 lists_block)))) with (beyond 9 lists_block).
  rewrite (run_parts w f 1). change (first 1 (beyond 9 lists_block)) with part5.
  assert (T4' : value w s4 "_useUnitTests" = Some (flag (is_on w "TEST_ANSAKSTRING" || root w))) by (back; exact T3).
  pose proof (run5 w f C s4 _ K4 T4 T4') as R5.
  destruct (visual w && coverage w); cbn [orb]; [now rewrite R5|].
  destruct R5 as (s5 & R5 & H5 & T5). rewrite R5. clear R5. cbn [bind].
  assert (K5 : kept w s5) by (refine (change_kept w _ _ _ _ _ H5 K4); reflexivity).
  change (beyond 1 (beyond 9 lists_block)) with (beyond 10 lists_block).
  rewrite (run_parts w f 1). change (first 1 (beyond 10 lists_block)) with part6.
  assert (B5 : value w s5 "_ansakBuildType" = Some (build_kind w)) by (back; exact T4).
  destruct (run6 w f C s5 _ K5 B5 T5) as (s6 & R6 & H6 & T6). rewrite R6. clear R6. cbn [bind]. fold (tested w) in T6.
  assert (K6 : kept w s6) by (refine (change_kept w _ _ _ _ _ H6 K5); reflexivity).
  change (beyond 1 (beyond 10 lists_block)) with (beyond 11 lists_block).
  rewrite (run_parts w f 1). change (first 1 (beyond 11 lists_block)) with part7.
  assert (F : forall x, x <> "packaging.cmake" -> f x = None) by (intros x N; unfold f; now destruct (String.eqb_spec x "packaging.cmake")).
  assert (B6 : value w s6 "_ansakBuildType" = Some (build_kind w)) by (back; exact T4).
  assert (O6 : value w s6 "_ansakRoot" = Some (flag (root w))) by (back; exact O2).
  destruct (run7 w f C s6 K6 F B6 T6 O6) as (s7 & R7 & H7). rewrite R7. clear R7. cbn [bind].
  assert (K7 : kept w s7) by (refine (change_kept w _ _ _ _ _ H7 K6); reflexivity).
  change (beyond 1 (beyond 11 lists_block)) with (beyond 12 lists_block).
  rewrite (run_parts w f 1). change (first 1 (beyond 12 lists_block)) with part8.
  destruct (run8 w f C s7 K7) as (s8 & R8 & H8 & T8). rewrite R8. clear R8. cbn [bind].
  assert (K8 : kept w s8) by (refine (change_kept w _ _ _ _ _ H8 K7); reflexivity).
  change (beyond 1 (beyond 12 lists_block)) with (beyond 13 lists_block).
  rewrite (run_parts w f 2). change (first 2 (beyond 13 lists_block)) with part9.
  assert (U8 : value w s8 "ANSAK_UNICODE_SUPPORT" = given w "ANSAK_UNICODE_SUPPORT") by (back; exact U1).
  destruct (run9 w f C s8 K8 U8) as (s9 & R9 & H9 & T9). rewrite R9. clear R9. cbn [bind].
  assert (K9 : kept w s9) by (refine (change_kept w _ _ _ _ _ H9 K8); reflexivity).
  change (beyond 2 (beyond 13 lists_block)) with (beyond 15 lists_block).
  rewrite (run_parts w f 7). change (first 7 (beyond 15 lists_block)) with part10.
  assert (D9 : value w s9 "PROJECT_SOURCE_DIR" = Some (setting w "CMAKE_CURRENT_SOURCE_DIR")) by (back; exact D1).
  destruct (run10 w f C s9 _ K9 eq_refl T9 D9) as (s10 & R10 & H10 & T10 & X10). rewrite R10. clear R10. cbn [bind].
  assert (K10 : kept w s10) by (refine (change_kept w _ _ _ _ _ H10 K9); reflexivity).
  change (beyond 7 (beyond 15 lists_block)) with (beyond 22 lists_block).
  rewrite (run_parts w f 1). change (first 1 (beyond 22 lists_block)) with part11.
  assert (U10 : is_on w "UNIX" = true -> value w s10 "_isGnu" = Some (flag (gnu w))) by (intro N; back; now apply T8).
  destruct (run11 w f C s10 K10 U10) as (s11 & R11 & H11). rewrite R11. clear R11. cbn [bind].
  assert (K11 : kept w s11) by (refine (change_kept w _ _ _ _ _ H11 K10); reflexivity).
  change (beyond 1 (beyond 22 lists_block)) with (beyond 23 lists_block).
  rewrite (run_parts w f 3). change (first 3 (beyond 23 lists_block)) with part12.
  assert (B11 : value w s11 "bitsDir" = Some (bits (unicode w))) by (back; exact T10).
  destruct (run12 w f C s11 _ eq_refl B11) as (s12 & R12 & H12). rewrite R12. clear R12. cbn [bind].
  assert (K12 : kept w s12) by (refine (change_kept w _ _ _ _ _ H12 K11); reflexivity).
  change (beyond 3 (beyond 23 lists_block)) with (beyond 26 lists_block).
  rewrite (run_parts w f 1). change (first 1 (beyond 26 lists_block)) with part13.
  assert (A12 : asked s12 = submodules_asked w ++ options_asked w ++ library_asked w).
  { rewrite (ch_asked w _ _ _ _ H12), (ch_asked w _ _ _ _ H11), (ch_asked w _ _ _ _ H10), (ch_asked w _ _ _ _ H9), (ch_asked w _ _ _ _ H8),
      (ch_asked w _ _ _ _ H7), (ch_asked w _ _ _ _ H6), (ch_asked w _ _ _ _ H5), (ch_asked w _ _ _ _ H4), (ch_asked w _ _ _ _ H3), (ch_asked w _ _ _ _ H2), A1.
    rewrite ?app_nil_r. unfold library_asked. rewrite <- ?app_assoc. reflexivity. }
  pose proof (run13 w f C s12 _ K12 eq_refl) as R13.
  specialize (R13 ltac:(back; exact T9) ltac:(back; exact E1) ltac:(back; exact X10) ltac:(back; exact T6) ltac:(back; exact T4)).
  specialize (R13 ltac:(rewrite A12, !existsb_app, coverage_module, options_no_module, library_no_module, ?orb_false_r; reflexivity)).
  destruct (coverage w && negb (root w) && negb (defined w "setup_target_for_coverage")); cbn [orb]; [now rewrite R13|].
  destruct R13 as (s13 & R13 & H13). rewrite R13. clear R13. cbn [bind].
  assert (K13 : kept w s13) by (refine (change_kept w _ _ _ _ _ H13 K12); reflexivity).
  change (beyond 1 (beyond 26 lists_block)) with (If [{| quoted := false; pieces := [Lit "_ansakRoot"] |}]
    (Do "include" [{| quoted := false; pieces := [Lit "packaging.cmake"] |}] Nil) Nil Nil).
  assert (O13 : value w s13 "_ansakRoot" = Some (flag (root w))) by (back; exact O2).
  cond (root w) ltac:(rewrite O13; cbn; rewrite truth_flag).
  assert (S13 : is_on w "UNIX" = true -> value w s13 "CMAKE_CXX_STANDARD" = Some "11" /\ value w s13 "CMAKE_CXX_STANDARD_REQUIRED" = Some "ON").
  { intro N. back. now apply T8. }
  assert (A13 : asked s13 = submodules_asked w ++ options_asked w ++ library_asked w ++ tests_asked w).
  { rewrite (ch_asked w _ _ _ _ H13), A12, <- !app_assoc. reflexivity. }
  destruct (root w) eqn:RT; cbn [andb].
  - match goal with |- context [run w f (Do ?n ?a ?rest) ?st] =>
      rewrite (s_do w f n a rest st [(false, "packaging.cmake")] eq_refl)
    end.
    change (command w f "include" [(false, "packaging.cmake")] s13) with (run w (fun _ => None) packaging_block s13).
    assert (R14 := run_pack w C s13 (unicode w) K13 ltac:(back; exact T9) ltac:(back; exact G1)).
    specialize (R14 ltac:(rewrite A13, !existsb_app; cbn; rewrite ?orb_true_r; reflexivity)).
    specialize (R14 ltac:(intro N; destruct (V1 (proj1 (release_grows _ N)) eq_refl) as (? & ? & ?); repeat split; back; assumption)).
    destruct (before_release (release w) (3, 14)); [now rewrite R14|].
    destruct R14 as (t & R14 & H14 & P14). rewrite R14. cbn [bind]. rewrite !s_nil. cbn [bind]. rewrite ?s_nil.
    exists t. split; [reflexivity|]. split.
    + rewrite (ch_asked w _ _ _ _ H14), A13. unfold all_asked, packages_asked. rewrite RT. unfold asked2. rewrite <- !app_assoc. reflexivity.
    + split; [|split; [intros _; exact P14|refine (change_kept w _ _ _ _ _ H14 K13); reflexivity]]. intro N. back. now apply T8.
  - rewrite !s_nil. cbn [bind]. rewrite ?s_nil. exists s13. split; [reflexivity|]. split.
    + rewrite A13. unfold all_asked, packages_asked. rewrite RT, app_nil_r. reflexivity.
    + split; [exact S13|]. split; [discriminate|exact K13].
Qed.

Theorem lists_run :
  if fails w then run_lists CMakeLists_txt packaging_cmake w = Fatal
  else exists t, run_lists CMakeLists_txt packaging_cmake w = Went t /\ asked t = all_asked w /\ standard_11 w t /\
         (root w = true -> packaged w (unicode w) t).
Proof.
  pose proof lists_run_kept as L. destruct (fails w); [exact L|]. destruct L as (t & R & A & S & P & _). exists t. auto.
Qed.
End All.
