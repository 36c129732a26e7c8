(** C152: targets are made before they are used. *)
From Coq Require Import ZArith List Bool String Ascii Lia.
From Verif Require Import Gen.TextLists Model.Make Model.Lists Model.ListsWanted Spec.Lists Spec.ListsOrder.
From Verif Require Import Proof.ListsAll Proof.ListsCase Proof.ListsWorlds.
Import ListNotations.
Open Scope string_scope.
Open Scope list_scope.

Fixpoint ordered (known : list string) (l : list request) : bool :=
  match l with
  | [] => true
  | r :: l => forallb (fun x => existsb (String.eqb x) known) (uses r) && ordered (known ++ defines r) l
  end.

Lemma ordered_app : forall a known b, ordered known (a ++ b) = ordered known a && ordered (known ++ flat_map defines a) b.
Proof.
  induction a as [|r a IH]; intros known b; cbn [app ordered flat_map].
  - now rewrite app_nil_r.
  - now rewrite IH, andb_assoc, <- app_assoc.
Qed.

Lemma ordered_sound : forall l r m known x, ordered known (l ++ r :: m) = true -> In x (uses r) ->
  In x known \/ exists r', In r' l /\ In x (defines r').
Proof.
  intros l r m known x O U. rewrite ordered_app in O. apply andb_true_iff in O as (_ & O). cbn [ordered] in O.
  apply andb_true_iff in O as (O & _). rewrite forallb_forall in O. specialize (O x U). apply among, in_app_iff in O as [O|O]; [now left|].
  right. apply in_flat_map in O as (r' & I & D). now exists r'.
Qed.

Lemma all_ordered : forall w, ordered [] (all_asked w) = true.
Proof.
  intro w. unfold all_asked. rewrite !ordered_app.
  assert (S : ordered [] (submodules_asked w) = true /\ flat_map defines (submodules_asked w) = [])
    by (unfold submodules_asked; destruct (root w), (build_kind w =? "asan"), (tested w), (coverage w); split; reflexivity).
  assert (O : ordered [] (options_asked w) = true /\ flat_map defines (options_asked w) = [])
    by (unfold options_asked; destruct (is_on w "UNIX"), (is_on w "COVERAGE"), (gnu w); split; reflexivity).
  assert (L : ordered [] (library_asked w) = true /\ flat_map defines (library_asked w) = ["ansakString"])
    by (unfold library_asked; destruct (is_on w "UNIX" && (negb (gnu w) || modern w)); split; reflexivity).
  destruct S as (S & ->), O as (O & ->), L as (L & ->). cbn [app]. rewrite S, O, L. cbn [andb].
  assert (T : ordered ["ansakString"] (tests_asked w) = true).
  { unfold tests_asked. destruct (tested w); [|reflexivity]. destruct (is_on w "WIN32"), (coverage w); reflexivity. }
  rewrite T. cbn [andb].
  assert (P : forall k, ordered ("ansakString" :: k) (packages_asked w) = true)
    by (intro k; unfold packages_asked; destruct (root w), (linux w); reflexivity).
  apply P.
Qed.

Theorem targets_ordered : forall w, clean w -> fails w = false -> exists t, run_it w = Went t /\ in_order t.
Proof.
  intros w C F. destruct (went w C F) as (t & R & A & _). exists t. split; [exact R|]. intros l r m x E U.
  destruct (ordered_sound l r m [] x) as [[]|X]; [|exact U|exact X]. rewrite <- E, A. apply all_ordered.
Qed.

Definition link_requests (w : world) : list request :=
  if tested w then
    [("target_link_libraries", words ["mkUnicodeTestData"; "PRIVATE"; "ansakString"]);
     ("target_link_libraries", words ["ansakStringTest"; "PRIVATE"; "ansakString"; "gtest_main"])]
  else [].

Lemma link_requests_all : forall w, filter (fun r => fst r =? "target_link_libraries") (all_asked w) = link_requests w.
Proof.
  intro w. unfold all_asked. rewrite !filter_app.
  replace (filter _ (submodules_asked w)) with (@nil request)
    by (unfold submodules_asked; destruct (root w), (build_kind w =? "asan"), (tested w), (coverage w); reflexivity).
  replace (filter _ (options_asked w)) with (@nil request)
    by (unfold options_asked; destruct (is_on w "UNIX"), (is_on w "COVERAGE"), (gnu w); reflexivity).
  replace (filter _ (library_asked w)) with (@nil request)
    by (unfold library_asked; destruct (is_on w "UNIX" && (negb (gnu w) || modern w)); reflexivity).
  replace (filter _ (packages_asked w)) with (@nil request)
    by (unfold packages_asked; destruct (root w), (linux w); reflexivity).
  rewrite app_nil_r. unfold tests_asked, link_requests. destruct (tested w); [|reflexivity].
  destruct (is_on w "WIN32"), (coverage w); reflexivity.
Qed.

Lemma links_among : forall w r x, In r (all_asked w) -> In x (links r) -> tested w = true /\ (x = "ansakString" \/ x = "gtest_main").
Proof.
  intros w r x I X. unfold links in X. destruct (fst r =? "target_link_libraries") eqn:E; [|destruct X].
  assert (J : In r (link_requests w)) by (rewrite <- link_requests_all; apply filter_In; now split).
  unfold link_requests in J. destruct (tested w); [|destruct J]. split; [reflexivity|].
  destruct J as [<-|[<-|[]]]; cbn in X; decompose [or] X; subst; tauto.
Qed.

Lemma library_made : forall w, exists r, In r (all_asked w) /\ In "ansakString" (defines r).
Proof.
  intro w. exists ("add_library", words (["ansakString"; "STATIC"] ++ library_files (unicode w))). split; [|now left].
  unfold all_asked, library_asked. apply in_app_iff. right. apply in_app_iff. right. apply in_app_iff. left. now left.
Qed.

Theorem linked_made : forall w, clean w -> fails w = false -> root w = true ->
  exists t, run_it w = Went t /\ forall r x, In r (asked t) -> In x (links r) -> made_by (asked t) x.
Proof.
  intros w C F O. destruct (went w C F) as (t & R & A & _). exists t. split; [exact R|]. rewrite A. intros r x I X.
  destruct (links_among w r x I X) as (T & [E|E]); subst x; [left; apply library_made|]. right. split; [reflexivity|].
  unfold all_asked, submodules_asked. rewrite O, T. apply in_app_iff. left. apply in_app_iff. right. apply in_app_iff. right. apply in_app_iff. right. now left.
Qed.

(** As a part of another project, with tests, googletest has to come from elsewhere. *)
Definition tested_part : world :=
  make_world (("TEST_ANSAKSTRING", "1") :: linux_settings "/s/string" "Release") None (3, 25) "Debian".

Lemma tested_part_clean : clean tested_part. Proof. is_clean. Qed.

Lemma not_made : exists w t r, clean w /\ root w = false /\ run_it w = Went t /\ In r (asked t) /\ In "gtest_main" (links r) /\ ~ made_by (asked t) "gtest_main".
Proof.
  destruct (went tested_part tested_part_clean ltac:(vm_compute; reflexivity)) as (t & R & A & _).
  exists tested_part, t, ("target_link_libraries", words ["ansakStringTest"; "PRIVATE"; "ansakString"; "gtest_main"]).
  split; [exact tested_part_clean|]. split; [vm_compute; reflexivity|]. split; [exact R|]. rewrite A. split; [|split].
  - assert (J : In ("target_link_libraries", words ["ansakStringTest"; "PRIVATE"; "ansakString"; "gtest_main"]) (link_requests tested_part)) by (right; now left).
    rewrite <- link_requests_all in J. apply filter_In in J. exact (proj1 J).
  - cbn. tauto.
  - intros [(r & I & D)|(_ & I)].
    + assert (X : forallb (fun r => negb (existsb (String.eqb "gtest_main") (defines r))) (all_asked tested_part) = true) by (vm_compute; reflexivity).
      rewrite forallb_forall in X. specialize (X r I). apply negb_true_iff in X. exact (not_among _ _ X D).
    + assert (X : existsb (fun r => fst r =? "add_subdirectory") (all_asked tested_part) = false) by (vm_compute; reflexivity).
      assert (Y : existsb (fun r => fst r =? "add_subdirectory") (all_asked tested_part) = true)
        by (apply existsb_exists; eexists; split; [exact I|reflexivity]).
      rewrite X in Y. discriminate.
Qed.
