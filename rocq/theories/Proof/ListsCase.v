(** C145-C150 from the run of the text, and cases. *)
From Coq Require Import ZArith List Bool String Ascii Lia.
From Verif Require Import Gen.Files Gen.Text Gen.TextLists Model.Make Model.Cmake Model.Lists Model.ListsWanted Spec.Lists.
From Verif Require Import Proof.ListsRun Proof.ListsAll.
Import ListNotations.
Open Scope string_scope.
Open Scope list_scope.

Notation run_it := (run_lists CMakeLists_txt packaging_cmake).

Lemma went : forall w, clean w -> fails w = false ->
  exists t, run_it w = Went t /\ asked t = all_asked w /\ standard_11 w t /\ (root w = true -> packaged w (unicode w) t).
Proof. intros w C F. pose proof (lists_run w C) as L. now rewrite F in L. Qed.

(** * C145: the Unicode version *)

Lemma chosen_unicode : forall w, chosen (setting w "ANSAK_UNICODE_SUPPORT") (unicode w) /\ In (unicode w) versions.
Proof.
  intro w. unfold unicode, chosen. destruct (existsb _ supported) eqn:E.
  - apply existsb_exists in E as (x & I & E). apply String.eqb_eq in E as ->. split; [left; split; [exact I|reflexivity]|exact I].
  - split; [right; split; [|reflexivity]|cbn; tauto]. intro I.
    assert (X : existsb (String.eqb (setting w "ANSAK_UNICODE_SUPPORT")) supported = true) by (apply existsb_exists; eexists; split; [exact I|apply String.eqb_refl]).
    rewrite X in E. discriminate.
Qed.

Definition plainly_compiled (l : list request) : list string :=
  flat_map (fun r : request => if (fst r =? "add_library") || (fst r =? "add_executable")
    then flat_map (fun x : bool * string => if fst x then [] else [snd x]) (snd r) else []) l.

Lemma compiles_listed : forall t f, compiles t f <-> In f (plainly_compiled (asked t)).
Proof.
  intros t f. unfold compiles, plainly_compiled. rewrite in_flat_map. split.
  - intros (r & I & N & J). exists r. split; [exact I|].
    replace ((fst r =? "add_library") || (fst r =? "add_executable")) with true
      by (symmetry; apply orb_true_iff; rewrite !String.eqb_eq; exact N).
    apply in_flat_map. exists (false, f). split; [exact J|]. now left.
  - intros (r & I & J). exists r. split; [exact I|].
    destruct ((fst r =? "add_library") || (fst r =? "add_executable")) eqn:E; [|destruct J].
    split; [now apply orb_true_iff in E; rewrite !String.eqb_eq in E|].
    apply in_flat_map in J as ((q, x) & J & M). cbn in M. destruct q; [destruct M|]. destruct M as [<-|[]]. exact J.
Qed.

Lemma plainly_app : forall a b, plainly_compiled (a ++ b) = plainly_compiled a ++ plainly_compiled b.
Proof. intros. apply flat_map_app. Qed.

Lemma compiled_all : forall w, plainly_compiled (all_asked w) =
  ["ansakString"; "STATIC"] ++ library_files (unicode w) ++
  (if tested w then ["mkUnicodeTestData"; "mkUnicodeTestData/mkUnicodeTestData.cxx"; "ansakStringTest"] ++ test_files (unicode w) else []).
Proof.
  intro w. unfold all_asked. rewrite !plainly_app.
  replace (plainly_compiled (submodules_asked w)) with (@nil string)
    by (unfold submodules_asked; destruct (root w), (build_kind w =? "asan"), (tested w), (coverage w); reflexivity).
  replace (plainly_compiled (options_asked w)) with (@nil string)
    by (unfold options_asked; destruct (is_on w "UNIX"), (is_on w "COVERAGE"), (gnu w); reflexivity).
  replace (plainly_compiled (packages_asked w)) with (@nil string)
    by (unfold packages_asked; destruct (root w), (linux w); reflexivity).
  replace (plainly_compiled (library_asked w)) with (["ansakString"; "STATIC"] ++ library_files (unicode w)).
  2: { unfold library_asked. destruct (is_on w "UNIX" && _); reflexivity. }
  rewrite app_nil_r. unfold tests_asked. destruct (tested w); [|reflexivity].
  rewrite !plainly_app. destruct (is_on w "WIN32"), (coverage w); reflexivity.
Qed.


Lemma listed_iff : forall f l (u n : string), existsb (String.eqb f) l = (n =? u) -> (In f l <-> n = u).
Proof.
  intros f l u n E. rewrite <- String.eqb_eq, <- E, existsb_exists. split.
  - intro I. exists f. split; [exact I|apply String.eqb_refl].
  - intros (x & I & X). apply String.eqb_eq in X as ->. exact I.
Qed.

Definition listed (b : bool) (u : string) : list string :=
  ["ansakString"; "STATIC"] ++ library_files u ++
  (if b then ["mkUnicodeTestData"; "mkUnicodeTestData/mkUnicodeTestData.cxx"; "ansakStringTest"] ++ test_files u else []).

Definition distinct : bool :=
  forallb (fun u => forallb (fun n => forallb (fun b =>
    Bool.eqb (existsb (String.eqb (lower_file n)) (listed b u)) (n =? u) &&
    Bool.eqb (existsb (String.eqb (assigned_file n)) (listed b u)) (n =? u) &&
    Bool.eqb (existsb (String.eqb (lower_test n)) (listed b u)) (b && (n =? u))) [true; false]) versions) versions.

Lemma distinct_true : distinct = true.
Proof. vm_compute. reflexivity. Qed.

Lemma distinct_listed : forall u n b, In u versions -> In n versions ->
  existsb (String.eqb (lower_file n)) (listed b u) = (n =? u) /\ existsb (String.eqb (assigned_file n)) (listed b u) = (n =? u) /\
  existsb (String.eqb (lower_test n)) (listed b u) = b && (n =? u).
Proof.
  intros u n b U N. pose proof distinct_true as D. unfold distinct in D. rewrite forallb_forall in D. specialize (D u U).
  rewrite forallb_forall in D. specialize (D n N). rewrite forallb_forall in D. specialize (D b ltac:(destruct b; cbn; tauto)).
  rewrite !andb_true_iff, !eqb_true_iff in D. tauto.
Qed.

Lemma tests_tested : forall w t, asked t = all_asked w -> (tests t <-> tested w = true).
Proof.
  intros w t A. unfold tests. rewrite A. unfold all_asked, tests_asked. split.
  - intros (a & T). unfold submodules_asked, options_asked, library_asked, packages_asked in T.
    destruct (tested w); [reflexivity|]. exfalso. rewrite ?in_app_iff in T.
    destruct T as [T|[T|[[T|[T|T]]|[T|T]]]].
    + destruct (root w), (build_kind w =? "asan"); cbn in T; decompose [or] T; try discriminate; assumption.
    + destruct (is_on w "UNIX"), (is_on w "COVERAGE"), (gnu w); cbn in T; decompose [or] T; try discriminate; assumption.
    + destruct T as [T|[]]; discriminate.
    + destruct (is_on w "UNIX" && _); [destruct T as [T|[]]; discriminate|destruct T].
    + destruct T as [T|[]]; discriminate.
    + destruct T.
    + destruct (root w), (linux w); cbn in T; decompose [or] T; try discriminate; assumption.
  - intros ->. exists (words ["NAME"; "ansakStringTest"; "COMMAND"; "ansakStringTest"]). rewrite ?in_app_iff. do 3 right. left.
    rewrite ?in_app_iff. do 2 right. left. now left.
Qed.

Theorem one_version : forall w, clean w -> fails w = false ->
  exists t v, run_it w = Went t /\ chosen (setting w "ANSAK_UNICODE_SUPPORT") v /\
    (forall n, In n versions -> (compiles t (lower_file n) <-> n = v) /\ (compiles t (assigned_file n) <-> n = v)) /\
    (tests t -> forall n, In n versions -> (compiles t (lower_test n) <-> n = v)) /\
    (root w = true -> value w t "CPACK_PACKAGE_NAME" = Some ("ansakString-u" ++ v)%string).
Proof.
  intros w C F. destruct (went w C F) as (t & R & A & _ & P). exists t, (unicode w). destruct (chosen_unicode w) as (K & I).
  split; [exact R|]. split; [exact K|]. split; [|split].
  - intros n N. rewrite !compiles_listed, A, compiled_all. destruct (distinct_listed (unicode w) n (tested w) I N) as (X & Y & _).
    split; apply listed_iff; assumption.
  - intros T n N. rewrite compiles_listed, A, compiled_all. apply (tests_tested w t A) in T.
    destruct (distinct_listed (unicode w) n (tested w) I N) as (_ & _ & X). fold (listed (tested w) (unicode w)). apply listed_iff.
    rewrite X, T. reflexivity.
  - intro N. destruct (P N) as (_ & E & _). exact E.
Qed.

Lemma append_assoc : forall a b c : string, ((a ++ b) ++ c)%string = (a ++ b ++ c)%string.
Proof. induction a as [|x a IH]; intros; [reflexivity|]. cbn [append]. now rewrite IH. Qed.

(** * C146: the files are there *)

Ltac ok D := (eapply D; [|first [symmetry; eassumption | reflexivity]]); reflexivity.

Theorem nothing_missing : forall w, clean w -> fails w = false ->
  exists t, run_it w = Went t /\ complete (setting w "CMAKE_CURRENT_SOURCE_DIR") t.
Proof.
  intros w C F. destruct (went w C F) as (t & R & A & _). exists t. split; [exact R|]. intros r f I J.
  assert (T : In f repo_files \/ (f = made_file w /\ tested w = true)).
  { rewrite A in I. destruct (chosen_unicode w) as (_ & V). unfold all_asked in I. rewrite ?in_app_iff in I.
    assert (D : forall x, existsb (String.eqb x) repo_files = true -> f = x -> In f repo_files \/ (f = made_file w /\ tested w = true)).
    { intros x E ->. left. apply existsb_exists in E as (y & Y & E). apply String.eqb_eq in E as ->. exact Y. }
    destruct I as [I|[I|[I|[I|I]]]].
    - unfold submodules_asked in I. destruct (root w), (build_kind w =? "asan"), (tested w), (coverage w); cbn in I;
        decompose [or] I; subst; try contradiction; cbn in J; decompose [or] J; subst; try contradiction; ok D.
    - unfold options_asked in I. destruct (is_on w "UNIX"), (is_on w "COVERAGE"), (gnu w); cbn in I;
        decompose [or] I; subst; try contradiction; cbn in J; contradiction.
    - unfold library_asked in I. revert V I. generalize (unicode w). intros u V I. cbn in V.
      destruct (is_on w "UNIX" && (negb (gnu w) || modern w)); cbn in I;
        decompose [or] I; subst; try contradiction; cbn in J; try contradiction; decompose [or] V; subst; try contradiction;
        decompose [or] J; try contradiction; ok D.
    - unfold tests_asked in I. destruct (tested w); [|destruct I]. rewrite ?in_app_iff in I. destruct I as [I|[I|[I|I]]].
      + cbn [In] in I. destruct I as [<-|[<-|[<-|[<-|[<-|[<-|[]]]]]]]; try (cbn in J; contradiction).
        * cbn in J. destruct J as [J|[]]. ok D.
        * unfold needs in J. cbn [String.eqb Ascii.eqb Bool.eqb] in J. rewrite map_app in J. cbn [words map snd skipn app] in J.
          apply in_app_iff in J as [J|J]; [|destruct J as [J|[]]; right; split; [now symmetry|reflexivity]].
          revert V J. generalize (unicode w). intros u V J. cbn in V, J.
          decompose [or] V; subst; try contradiction; decompose [or] J; try contradiction; ok D.
      + destruct (is_on w "WIN32"); [|destruct I]. destruct I as [<-|[]]. destruct J.
      + destruct I as [<-|[]]. destruct J.
      + destruct (coverage w); [|destruct I]. destruct I as [<-|[]]. destruct J.
    - unfold packages_asked in I. destruct (root w), (linux w); cbn in I;
        decompose [or] I; subst; try contradiction; cbn in J; decompose [or] J; subst; try contradiction; ok D. }
  destruct T as [T|(-> & T)]; [now left|]. right. unfold makes.
  exists "mkUnicodeTestData", (bits (unicode w) ++ "/UnicodeData.txt")%string. eexists. split; [|split].
  - rewrite A. unfold all_asked, tests_asked. rewrite T. rewrite ?in_app_iff. do 3 right. left. rewrite ?in_app_iff. left. cbn [In]. do 2 right. left.
    unfold data_file.
    replace ((setting w "CMAKE_CURRENT_SOURCE_DIR" ++ "/" ++ bits (unicode w)) ++ "/UnicodeData.txt")%string
      with (setting w "CMAKE_CURRENT_SOURCE_DIR" ++ "/" ++ (bits (unicode w) ++ "/UnicodeData.txt"))%string.
    2: { rewrite append_assoc. reflexivity. }
    reflexivity.
  - destruct (chosen_unicode w) as (_ & V). revert V. generalize (unicode w). intros u V. cbn in V.
    assert (E : existsb (String.eqb (bits u ++ "/UnicodeData.txt")) repo_files = true) by (decompose [or] V; subst; try contradiction; reflexivity).
    apply existsb_exists in E as (y & Y & E). apply String.eqb_eq in E as ->. exact Y.
  - apply compiles_listed. rewrite A, compiled_all, T. cbn. tauto.
Qed.

(** * C147: the unit tests *)

Theorem tests_wanted : forall w, clean w -> fails w = false -> visual w = false ->
  exists t, run_it w = Went t /\ (tests t <-> root w = true \/ is_on w "TEST_ANSAKSTRING" = true \/ coverage w = true).
Proof.
  intros w C F V. destruct (went w C F) as (t & R & A & _). exists t. split; [exact R|]. rewrite (tests_tested w t A). unfold tested.
  rewrite V. cbn. rewrite andb_true_r, !orb_true_iff. tauto.
Qed.

Lemma studio_sorts : forall g y, of_year g y -> (2010 <= y)%Z -> contains "Visual Studio" g = true /\ strless g "Visual Studio 14 2015" = (y <? 2015)%Z.
Proof.
  intros g y (n & rest & I & ->) Y. cbn in I.
  decompose [or] I; try contradiction;
  match goal with H : (_, _) = (n, y) |- _ => injection H as <- <- end; try lia; (split; [reflexivity|]);
  unfold strless; cbn; try reflexivity; now destruct rest.
Qed.

Theorem tests_studio : forall w y, clean w -> fails w = false -> of_year (generator w) y -> (2010 <= y)%Z -> root w = true \/ is_on w "TEST_ANSAKSTRING" = true ->
  exists t, run_it w = Went t /\ (tests t <-> (2015 <= y)%Z).
Proof.
  intros w y C F G Y O. destruct (went w C F) as (t & R & A & _). exists t. split; [exact R|]. rewrite (tests_tested w t A).
  destruct (studio_sorts _ _ G Y) as (V & S). unfold tested, visual, sorts_before_2015. rewrite V, S.
  replace (coverage w) with false.
  2: { unfold fails in F. rewrite !orb_false_iff in F. destruct F as (((_ & F) & _) & _). unfold visual in F. now rewrite V, andb_true_l in F. }
  replace (is_on w "TEST_ANSAKSTRING" || root w) with true by (symmetry; apply orb_true_iff; tauto).
  rewrite !andb_true_l, orb_false_r, negb_true_iff, Z.ltb_ge. reflexivity.
Qed.

(** * C148: coverage *)

Theorem covered : forall w, clean w -> coverage w = true -> fails w = false -> exists t, run_it w = Went t /\ tests t /\ sets_up_coverage t.
Proof.
  intros w C V F. destruct (went w C F) as (t & R & A & _). exists t. split; [exact R|].
  assert (T : tested w = true) by (unfold tested; rewrite V; apply orb_true_r).
  split; [now apply (tests_tested w t A)|]. unfold sets_up_coverage. rewrite A. unfold all_asked, tests_asked. rewrite T, V.
  rewrite ?in_app_iff. do 3 right. left. rewrite ?in_app_iff. do 3 right. now left.
Qed.

Theorem covered_studio : forall w, clean w -> coverage w = true -> visual w = true -> run_it w = Fatal.
Proof. intros w C V S. pose proof (lists_run w C) as L. unfold fails in L. now rewrite V, S, !orb_true_r in L. Qed.

Theorem covered_part : forall w, clean w -> coverage w = true -> root w = false -> defined w "setup_target_for_coverage" = false -> run_it w = Fatal.
Proof. intros w C V S D. pose proof (lists_run w C) as L. unfold fails in L. now rewrite V, S, D, !orb_true_r in L. Qed.

(** * C149: packages *)

Theorem packaged_as : forall w, clean w -> fails w = false -> root w = true -> exists t, run_it w = Went t /\ packaged w (unicode w) t.
Proof. intros w C F O. destruct (went w C F) as (t & R & _ & _ & P). exists t. split; [exact R|now apply P]. Qed.

Theorem too_old : forall w, clean w -> root w = true -> before_release (release w) (3, 14) = true -> run_it w = Fatal.
Proof. intros w C O B. pose proof (lists_run w C) as L. unfold fails in L. now rewrite O, B, !orb_true_r in L. Qed.

(** * C150: the headers *)


Lemma installed_headers : forall w t, asked t = all_asked w -> root w = true -> forall h, installed t h <-> In h public_headers.
Proof.
  intros w t A O h. unfold installed. rewrite A. split.
  - intros (l & I & J). unfold all_asked in I. rewrite ?in_app_iff in I. destruct I as [I|[I|[I|[I|I]]]].
    + exfalso. unfold submodules_asked in I. destruct (root w), (build_kind w =? "asan"), (tested w), (coverage w); cbn in I;
        decompose [or] I; try discriminate; assumption.
    + exfalso. unfold options_asked in I. destruct (is_on w "UNIX"), (is_on w "COVERAGE"), (gnu w); cbn in I; decompose [or] I; try discriminate; assumption.
    + exfalso. unfold library_asked in I. destruct (is_on w "UNIX" && (negb (gnu w) || modern w)); cbn in I; decompose [or] I; try discriminate; assumption.
    + exfalso. unfold tests_asked in I. destruct (tested w); [|destruct I]. rewrite ?in_app_iff in I. destruct I as [I|[I|[I|I]]].
      * cbn [In] in I. destruct I as [I|[I|[I|[I|[I|[I|[]]]]]]]; discriminate.
      * destruct (is_on w "WIN32"); [|destruct I]. destruct I as [I|[]]. discriminate.
      * destruct I as [I|[]]. discriminate.
      * destruct (coverage w); [|destruct I]. destruct I as [I|[]]. discriminate.
    + unfold packages_asked in I. rewrite O in I. rewrite ?in_app_iff in I. destruct I as [I|[I|I]].
      * cbn [In] in I. destruct I as [I|[I|[]]]; [discriminate|].
        assert (E : ["FILES"] ++ public_headers ++ ["DESTINATION"; "include/ansak"] = ["FILES"] ++ l ++ ["DESTINATION"; "include/ansak"]).
        { injection I as I. apply (f_equal (map snd)) in I. cbn [map snd] in I. rewrite map_map, map_id in I. cbn. rewrite I. reflexivity. }
        injection E as E.
        change ["interface/string.hxx"; "interface/string_splitjoin.hxx"; "interface/string_trim.hxx"; "DESTINATION"; "include/ansak"]
          with (public_headers ++ ["DESTINATION"; "include/ansak"]) in E.
        apply app_inv_tail in E. now rewrite E.
      * exfalso. destruct (linux w); cbn in I; decompose [or] I; try discriminate; assumption.
      * exfalso. destruct I as [I|[]]. discriminate.
  - intro I. exists public_headers. split; [|exact I]. unfold all_asked, packages_asked. rewrite O, ?in_app_iff. do 4 right. rewrite ?in_app_iff. left.
    right. now left.
Qed.

Definition included_all (lines : list string) : list string :=
  flat_map (fun l => match included l with Some x => [x] | None => [] end) lines.

Theorem headers_complete : forall w, clean w -> fails w = false -> root w = true ->
  exists t, run_it w = Went t /\
    (forall h, installed t h <-> In h public_headers) /\
    (forall h lines l x, installed t h -> In (h, lines) Text.files -> In l lines -> included l = Some x -> exists h', installed t h' /\ base "" h' = x).
Proof.
  intros w C F O. destruct (went w C F) as (t & R & A & _). exists t. split; [exact R|]. split; [apply (installed_headers w t A O)|].
  intros h lines l x I J K X.
  assert (E : In x (included_all lines)) by (unfold included_all; apply in_flat_map; exists l; split; [exact K|rewrite X; now left]).
  assert (N : forall f lines, In (f, lines) Text.files -> In f public_headers -> forall x, In x (included_all lines) -> x = "string.hxx").
  { clear. intros f lines I J x E.
    assert (A : forallb (fun p => negb (existsb (String.eqb (fst p)) public_headers) || forallb (fun x => x =? "string.hxx") (included_all (snd p))) Text.files = true)
      by (vm_compute; reflexivity).
    rewrite forallb_forall in A. specialize (A _ I). cbn [fst snd] in A. apply orb_true_iff in A as [A|A].
    - exfalso. apply negb_true_iff in A.
      assert (B : existsb (String.eqb f) public_headers = true) by (apply existsb_exists; exists f; split; [exact J|apply String.eqb_refl]).
      rewrite B in A. discriminate.
    - rewrite forallb_forall in A. apply String.eqb_eq. now apply A. }
  exists "interface/string.hxx". split.
  - apply (installed_headers w t A O). now left.
  - symmetry. apply (N h lines J); [|exact E]. now apply (installed_headers w t A O).
Qed.
