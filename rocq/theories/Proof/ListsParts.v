(** The parts of CMakeLists.txt before the library. *)
From Coq Require Import ZArith List Bool String Ascii Lia.
From Verif Require Import Gen.TextLists Model.Make Model.Cmake Model.Lists Model.ListsWanted Proof.ListsRun.
Import ListNotations.
Open Scope string_scope.
Open Scope list_scope.

Definition part (k n : nat) : block := first n (beyond k lists_block).

Definition flag (b : bool) : string := if b then "1" else "0".

Lemma truth_flag : forall b, truth (flag b) = b.
Proof. now intros []. Qed.

Ltac vals := repeat (first [rewrite value_put | rewrite value_unset | rewrite value_ask]; cbn [String.eqb Ascii.eqb Bool.eqb]).
Ltac base K := repeat match goal with |- context [value ?w ?s ?x] => rewrite (K x eq_refl) end.
Ltac cond b tac :=
  match goal with |- context [run ?w ?f (If ?c ?x ?y ?rest) ?st] =>
    let E := fresh "E" in
    assert (E : condition w st c = Holds b) by (unfold condition; cbn; tac; try reflexivity);
    rewrite (s_if w f c x y rest st b E); clear E
  end.
Ltac cmd tac :=
  match goal with |- context [run ?w ?f (Do ?n ?a ?rest) ?st] =>
    let E := fresh "E" in
    eassert (E : expand_args w st a = Some _) by (cbn; tac; reflexivity);
    rewrite (s_do w f n a rest st _ E); clear E; cbn [command String.eqb Ascii.eqb Bool.eqb bind]; cbn
  end.

Section Parts.
Variable w : world.
Variable f : string -> option (state -> outcome).
Hypothesis C : clean w.

Lemma literal : forall s x, In x (["coverage"; "asan"; "GNU"; "6.0"] ++ supported) -> kept w s -> value w s x = None.
Proof.
  intros s x I K. rewrite K; [now apply (cl_words w C)|]. cbn in I. intuition (subst; reflexivity).
Qed.

(** ** The project *)
Definition part1 : block := Eval vm_compute in part 0 2.

Lemma run1 : before_release (release w) (3, 10) = false ->
  exists s, run w f part1 {| mine := []; asked := [] |} = Went s /\ kept w s /\ asked s = [] /\
    value w s "PROJECT_SOURCE_DIR" = Some (setting w "CMAKE_CURRENT_SOURCE_DIR") /\
    value w s "PROJECT_BINARY_DIR" = Some (setting w "CMAKE_CURRENT_BINARY_DIR") /\
    value w s "ANSAK_UNICODE_SUPPORT" = given w "ANSAK_UNICODE_SUPPORT" /\ value w s "CPACK_GENERATOR" = given w "CPACK_GENERATOR" /\
    (before_release (release w) (3, 12) = false -> root w = true ->
       value w s "CMAKE_PROJECT_VERSION_MAJOR" = Some "2" /\ value w s "CMAKE_PROJECT_VERSION_MINOR" = Some "0" /\
       value w s "CMAKE_PROJECT_VERSION_PATCH" = Some "1").
Proof.
  intro R. set (s0 := {| mine := []; asked := [] |}). assert (K : kept w s0) by (intros x _; reflexivity).
  unfold part1. cmd idtac. change (parts "3.10") with [3%Z; 10%Z]. cbn. change (Z.to_nat 3, Z.to_nat 10) with (3, 10). change (Pos.to_nat 3, Pos.to_nat 10) with (3, 10). rewrite R. cbn.
  cmd idtac. rewrite s_nil. unfold the_project. vals. base K. fold (setting w "CMAKE_CURRENT_SOURCE_DIR") (setting w "CMAKE_CURRENT_BINARY_DIR").
  change (split_at "." "" "2.0.1") with ["2"; "0"; "1"].
  change (text (given w "CMAKE_SOURCE_DIR")) with (setting w "CMAKE_SOURCE_DIR"). fold (root w).
  destruct (before_release (release w) (3, 12)); [|destruct (root w)];
    (eexists; split; [reflexivity|]; split; [repeat (apply kept_put; [reflexivity|]); exact K|]; split; [reflexivity|]; split; [vals; reflexivity|];
     split; [vals; reflexivity|]; split; [vals; reflexivity|]; split; [vals; reflexivity|]; intros P1 P2; try discriminate; vals; auto).
Qed.

Lemma run1_old : before_release (release w) (3, 10) = true -> run w f part1 {| mine := []; asked := [] |} = Fatal.
Proof.
  intro R. unfold part1. cmd idtac. change (parts "3.10") with [3%Z; 10%Z]. cbn. change (Z.to_nat 3, Z.to_nat 10) with (3, 10). change (Pos.to_nat 3, Pos.to_nat 10) with (3, 10). now rewrite R.
Qed.

(** [t] is [s] after setting variables of [l] and asking for [r] *)
Record change (l : list string) (r : list request) (s t : state) : Prop := {
  ch_values : forall x, existsb (String.eqb x) l = false -> value w t x = value w s x;
  ch_asked : asked t = asked s ++ r }.

Lemma change_kept : forall l r s t, forallb (fun n => existsb (String.eqb n) own) l = true -> change l r s t -> kept w s -> kept w t.
Proof.
  intros l r s t L (V & _) K x X. rewrite V; [now apply K|].
  destruct (existsb (String.eqb x) l) eqn:E; [|reflexivity].
  apply existsb_exists in E as (y & I & Y). apply String.eqb_eq in Y. subst y.
  rewrite (proj1 (forallb_forall _ _) L x I) in X. discriminate.
Qed.

Ltac changed := constructor;
  [let x := fresh "x" in let X := fresh "X" in intros x X; repeat first [rewrite value_put | rewrite value_unset | rewrite value_ask];
   repeat match type of X with existsb _ ?l = false => match goal with |- context [String.eqb x ?n] => rewrite (member n l eq_refl x X) end end; reflexivity
  |repeat first [rewrite asked_put | rewrite asked_unset | rewrite asked_ask]; rewrite ?app_nil_r, <- ?app_assoc; reflexivity].

(** ** By itself or as a part *)
Definition part2 : block := Eval vm_compute in part 2 3.

Lemma run2 : forall s, kept w s ->
  exists t, run w f part2 s = Went t /\ change ["_ansakRoot"; "CMAKE_MODULE_PATH"] [] s t /\ value w t "_ansakRoot" = Some (flag (root w)).
Proof.
  intros s K. unfold part2. cmd idtac.
  cond (root w) ltac:(vals; base K; unfold root, setting; cbn).
  destruct (root w).
  - cmd idtac. rewrite s_nil. cbn. cond true ltac:(vals). cmd ltac:(vals; base K). rewrite !s_nil. cbn.
    eexists. split; [reflexivity|]. split; [changed|vals; reflexivity].
  - rewrite s_nil. cbn. cond false ltac:(vals). rewrite !s_nil. cbn. eexists. split; [reflexivity|]. split; [changed|vals; reflexivity].
Qed.

(** ** Whether the tests are asked for *)
Definition part3 : block := Eval vm_compute in part 5 2.

Lemma run3 : forall s, kept w s -> value w s "_ansakRoot" = Some (flag (root w)) ->
  exists t, run w f part3 s = Went t /\ change ["_useUnitTests"] [] s t /\
    value w t "_useUnitTests" = Some (flag (is_on w "TEST_ANSAKSTRING" || root w)).
Proof.
  intros s K R. unfold part3. cmd idtac.
  cond (is_on w "TEST_ANSAKSTRING" || root w) ltac:(vals; base K; rewrite R; cbn; rewrite truth_flag; unfold is_on, setting).
  destruct (is_on w "TEST_ANSAKSTRING" || root w).
  - cmd idtac. rewrite !s_nil. cbn. eexists. split; [reflexivity|]. split; [changed|vals; reflexivity].
  - rewrite !s_nil. cbn. eexists. split; [reflexivity|]. split; [changed|vals; reflexivity].
Qed.

(** ** What kind of build it is *)
Definition part4 : block := Eval vm_compute in part 7 2.

Lemma run4 : forall s, kept w s ->
  exists t, run w f part4 s = Went t /\ change ["_ansakBuildType"] [] s t /\ value w t "_ansakBuildType" = Some (build_kind w).
Proof.
  intros s K. unfold part4. cmd idtac.
  cond (is_on w "CMAKE_BUILD_TYPE") ltac:(vals; base K; unfold is_on, setting).
  unfold build_kind. destruct (is_on w "CMAKE_BUILD_TYPE").
  - cmd ltac:(vals; base K). rewrite !s_nil. cbn. eexists. split; [reflexivity|]. split; [changed|vals; reflexivity].
  - rewrite !s_nil. cbn. eexists. split; [reflexivity|]. split; [changed|vals; reflexivity].
Qed.

(** ** Visual Studio *)
Definition part5 : block := Eval vm_compute in part 9 1.

Ltac words K := repeat match goal with |- context [value w ?s ?x] => rewrite (literal s x ltac:(cbn; tauto) K) end.

Ltac plain G v := rewrite (itself_elements w v G); cbn;
  repeat (match goal with |- context [String.eqb v ?x] => rewrite (itself_not w v x G ltac:(cbn; tauto)) end; cbn);
  rewrite ?(itself_operator w v G); cbn; unfold side; cbn; repeat match goal with K : kept w ?s |- _ => rewrite (itself_value w s v G K) end; cbn.

Lemma run5 : forall s u, kept w s -> value w s "_ansakBuildType" = Some (build_kind w) -> value w s "_useUnitTests" = Some (flag u) ->
  if visual w && coverage w then run w f part5 s = Fatal
  else exists t, run w f part5 s = Went t /\ change ["_useUnitTests"] [] s t /\
         value w t "_useUnitTests" = Some (flag (u && negb (visual w && sorts_before_2015 w))).
Proof.
  intros s u K B U. unfold part5. pose proof (cl_generator w C) as G.
  assert (GS : given w "CMAKE_GENERATOR" = Some (generator w)) by exact (itself_some w "CMAKE_GENERATOR" G).
  cond (visual w) ltac:(base K; rewrite GS; cbn).
  destruct (visual w).
  - cond (coverage w) ltac:(rewrite B; words K; cbn; unfold coverage).
    destruct (coverage w).
    + cmd idtac. reflexivity.
    + rewrite s_nil. cbn.
      cond (u && sorts_before_2015 w) ltac:(rewrite (K "CMAKE_GENERATOR" eq_refl), GS; cbn; plain G (generator w); rewrite U; cbn; rewrite truth_flag).
      destruct (u && sorts_before_2015 w) eqn:E.
      * cmd idtac. cmd idtac. rewrite !s_nil. cbn. eexists. split; [reflexivity|]. split; [changed|]. vals.
        apply andb_true_iff in E as (-> & ->). reflexivity.
      * rewrite !s_nil. cbn. eexists. split; [reflexivity|]. split; [changed|]. rewrite U. now destruct u; cbn in E |- *; rewrite ?E.
  - rewrite !s_nil. cbn. eexists. split; [reflexivity|]. split; [changed|]. now rewrite U, andb_true_r.
Qed.

(** ** Coverage needs tests *)
Definition part6 : block := Eval vm_compute in part 10 1.

Lemma run6 : forall s u, kept w s -> value w s "_ansakBuildType" = Some (build_kind w) -> value w s "_useUnitTests" = Some (flag u) ->
  exists t, run w f part6 s = Went t /\ change ["_useUnitTests"] [] s t /\ value w t "_useUnitTests" = Some (flag (u || coverage w)).
Proof.
  intros s u K B U. unfold part6. pose proof (cl_kind w C) as G.
  cond (coverage w) ltac:(rewrite B; cbn; plain G (build_kind w); words K; cbn).
  destruct (coverage w) eqn:E.
  - cond (negb u) ltac:(rewrite U; cbn; rewrite truth_flag). destruct u; cbn [negb].
    + rewrite !s_nil. cbn. rewrite s_nil. eexists. split; [reflexivity|]. split; [changed|exact U].
    + cmd idtac. cmd idtac. rewrite !s_nil. cbn. rewrite !s_nil. cbn. eexists. split; [reflexivity|]. split; [changed|vals; reflexivity].
  - rewrite !s_nil. cbn. eexists. split; [reflexivity|]. split; [changed|]. now rewrite U, orb_false_r.
Qed.

(** ** Modules and submodules *)
Definition part7 : block := Eval vm_compute in part 11 1.

Lemma run7 : forall s, kept w s -> (forall x, x <> "packaging.cmake" -> f x = None) -> value w s "_ansakBuildType" = Some (build_kind w) ->
  value w s "_useUnitTests" = Some (flag (tested w)) -> value w s "_ansakRoot" = Some (flag (root w)) ->
  exists t, run w f part7 s = Went t /\ change [] (submodules_asked w) s t.
Proof.
  intros s K F B U R. unfold part7, submodules_asked. pose proof (cl_kind w C) as G.
  cond (root w) ltac:(rewrite R; cbn; rewrite truth_flag).
  destruct (root w); [|rewrite !s_nil; cbn; eexists; split; [reflexivity|changed]].
  cond (build_kind w =? "asan") ltac:(rewrite B; cbn; plain G (build_kind w); words K; cbn).
  assert (H : forall s', kept w s' -> value w s' "_ansakBuildType" = Some (build_kind w) -> value w s' "_useUnitTests" = Some (flag (tested w)) ->
    exists t, run w f (If [{| quoted := false; pieces := [Lit "_useUnitTests"] |}]
      match part7 with If _ (If _ _ _ (If _ x _ _)) _ _ => x | _ => Nil end Nil Nil) s' = Went t /\
      change [] (if tested w then [("include", ListsWanted.words ["CTest"])] ++
       (if coverage w then [("include", ListsWanted.words ["CodeCoverage"])] else []) ++ [("add_subdirectory", ListsWanted.words ["submods"])] else []) s' t).
  { intros s' K' B' U'. cbn [part7]. cond (tested w) ltac:(rewrite U'; cbn; rewrite truth_flag).
    destruct (tested w); [|rewrite !s_nil; cbn; eexists; split; [reflexivity|changed]].
    cmd idtac. rewrite F by discriminate. cbn.
    cond (coverage w) ltac:(vals; rewrite B'; words K'; cbn).
    destruct (coverage w).
    - cond (negb (is_on w "UNIX")) ltac:(vals; base K'; cbn).
      destruct (negb (is_on w "UNIX")); [cmd idtac|]; rewrite !s_nil; cbn; (cmd idtac; rewrite F by discriminate; cbn; rewrite !s_nil; cbn; cmd idtac; rewrite !s_nil; cbn;
        rewrite ?s_nil; eexists; split; [reflexivity|changed]).
    - rewrite !s_nil. cbn. cmd idtac. rewrite !s_nil. cbn. rewrite ?s_nil. eexists. split; [reflexivity|changed]. }
  destruct (build_kind w =? "asan").
  - cmd idtac. rewrite F by discriminate. cbn. rewrite s_nil. cbn.
    destruct (H (ask ("include", [(false, "FindASan")]) s)) as (t & E & V & A).
    + now apply kept_ask.
    + vals. exact B.
    + vals. exact U.
    + cbn [part7] in E. rewrite E. cbn. rewrite s_nil. exists t. split; [reflexivity|]. constructor.
      * intros x X. rewrite V by exact X. reflexivity.
      * rewrite A, asked_ask, <- app_assoc. reflexivity.
  - rewrite s_nil. cbn. destruct (H s K B U) as (t & E & V). cbn [part7] in E. rewrite E. cbn. rewrite s_nil. exists t. split; [reflexivity|exact V].
Qed.

(** ** Options *)
Definition part8 : block := Eval vm_compute in part 12 1.

Lemma run8 : forall s, kept w s ->
  exists t, run w f part8 s = Went t /\
    change ["_isGnu"; "CMAKE_CXX_STANDARD"; "CMAKE_CXX_STANDARD_REQUIRED"; "CMAKE_EXE_LINKER_FLAGS"] (options_asked w) s t /\
    (is_on w "UNIX" = true -> value w t "_isGnu" = Some (flag (gnu w)) /\ value w t "CMAKE_CXX_STANDARD" = Some "11" /\
       value w t "CMAKE_CXX_STANDARD_REQUIRED" = Some "ON").
Proof.
  intros s K. unfold part8, options_asked.
  cond (is_on w "UNIX") ltac:(base K).
  destruct (is_on w "UNIX"); [|rewrite !s_nil; cbn; eexists; split; [reflexivity|]; split; [changed|discriminate]].
  cmd idtac.
  cond (negb (gnu w)) ltac:(vals; words K; base K; cbn).
  assert (H : forall s', kept w s' -> value w s' "_isGnu" = Some (flag (gnu w)) ->
    exists t, run w f match part8 with If _ (Do _ _ (If _ _ _ x)) _ _ => x | _ => Nil end s' = Went t /\
      change ["CMAKE_CXX_STANDARD"; "CMAKE_CXX_STANDARD_REQUIRED"; "CMAKE_EXE_LINKER_FLAGS"]
       ([("add_compile_options", ListsWanted.words ["-Wall"; "-Wextra"; "-Werror"])] ++
        (if is_on w "COVERAGE" then [("add_compile_options", ListsWanted.words ["-O0"; "-fprofile-arcs"; "-ftest-coverage"])] else []) ++
        (if gnu w then [("add_compile_options", ListsWanted.words ["-Wno-missing-field-initializers"])] else [])) s' t /\
      value w t "CMAKE_CXX_STANDARD" = Some "11" /\ value w t "CMAKE_CXX_STANDARD_REQUIRED" = Some "ON").
  { intros s' K' U'. cbn [part8]. cmd idtac. cmd idtac. cmd idtac.
    cond (is_on w "COVERAGE") ltac:(vals; base K').
    destruct (is_on w "COVERAGE"); [cmd idtac; cmd ltac:(vals)|]; rewrite !s_nil; cbn;
      (cond (gnu w) ltac:(vals; rewrite U'; cbn; rewrite truth_flag); destruct (gnu w); [cmd idtac|]; rewrite !s_nil; cbn; rewrite ?s_nil;
       (eexists; split; [reflexivity|]; split; [changed|]; split; vals; reflexivity)). }
  destruct (gnu w) eqn:E; cbn [negb].
  - rewrite s_nil. cbn. destruct (H (put "_isGnu" "1" s)) as (t & R & (V & A) & X & Y).
    { apply kept_put; [reflexivity|exact K]. } { now vals. }
    cbn [part8] in R. rewrite R. cbn. rewrite s_nil. exists t. split; [reflexivity|]. split.
    + constructor; [|exact A]. intros x X'. rewrite V; [|cbn in X' |- *; destruct (x =? "_isGnu"); [discriminate|exact X']].
      rewrite value_put. now rewrite (member "_isGnu" ["_isGnu"; "CMAKE_CXX_STANDARD"; "CMAKE_CXX_STANDARD_REQUIRED"; "CMAKE_EXE_LINKER_FLAGS"] eq_refl x X').
    + intros _. rewrite V by reflexivity. vals. auto.
  - cmd idtac. rewrite s_nil. cbn. destruct (H (put "_isGnu" "0" (put "_isGnu" "1" s))) as (t & R & (V & A) & X & Y).
    { apply kept_put; [reflexivity|]. apply kept_put; [reflexivity|exact K]. } { now vals. }
    cbn [part8] in R. rewrite R. cbn. rewrite s_nil. exists t. split; [reflexivity|]. split.
    + constructor; [|exact A]. intros x X'. rewrite V; [|cbn in X' |- *; destruct (x =? "_isGnu"); [discriminate|exact X']].
      rewrite !value_put. now rewrite (member "_isGnu" ["_isGnu"; "CMAKE_CXX_STANDARD"; "CMAKE_CXX_STANDARD_REQUIRED"; "CMAKE_EXE_LINKER_FLAGS"] eq_refl x X').
    + intros _. rewrite V by reflexivity. vals. auto.
Qed.

(** ** The version of Unicode *)
Definition part9 : block := Eval vm_compute in part 13 2.

Lemma run9 : forall s, kept w s -> value w s "ANSAK_UNICODE_SUPPORT" = given w "ANSAK_UNICODE_SUPPORT" ->
  exists t, run w f part9 s = Went t /\ change ["DEFAULT_SUPPORTED_UNICODE_VERSION"; "ANSAK_UNICODE_SUPPORT"] [] s t /\
    value w t "ANSAK_UNICODE_SUPPORT" = Some (unicode w).
Proof.
  intros s K V. unfold part9. cmd idtac.
  cond (is_on w "ANSAK_UNICODE_SUPPORT") ltac:(vals; rewrite V).
  unfold unicode. unfold is_on, setting in *. destruct (given w "ANSAK_UNICODE_SUPPORT") as [v|] eqn:G; cbn [text].
  2: { change (truth "") with false. cbn iota. cmd ltac:(vals). cmd ltac:(vals; cbn; change (elements "16") with ["16"]; cbn). rewrite !s_nil. cbn. rewrite ?s_nil.
       eexists. split; [reflexivity|]. split; [changed|vals; reflexivity]. }
  destruct (truth v) eqn:T.
  - cond (negb (existsb (String.eqb v) supported)) ltac:(vals; rewrite V; words K; cbn; rewrite ?orb_false_r).
    destruct (existsb (String.eqb v) supported) eqn:E; cbn [negb].
    + rewrite !s_nil. cbn. rewrite s_nil. eexists. split; [reflexivity|]. split; [changed|vals; exact V].
    + cmd ltac:(vals; rewrite ?V). cmd ltac:(vals; cbn; change (elements "16") with ["16"]; cbn). rewrite !s_nil. cbn. rewrite ?s_nil. cbn. rewrite ?s_nil.
      eexists. split; [reflexivity|]. split; [changed|vals; reflexivity].
  - assert (E : existsb (String.eqb v) supported = false).
    { destruct (existsb (String.eqb v) supported) eqn:E; [|reflexivity]. apply existsb_exists in E as (y & I & Y). apply String.eqb_eq in Y. subst y.
      cbn in I. intuition (subst; discriminate). }
    rewrite E. cmd ltac:(vals). cmd ltac:(vals; cbn; change (elements "16") with ["16"]; cbn). rewrite !s_nil. cbn. rewrite ?s_nil.
    eexists. split; [reflexivity|]. split; [changed|vals; reflexivity].
Qed.
End Parts.
