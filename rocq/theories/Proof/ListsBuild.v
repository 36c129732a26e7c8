(** The parts of CMakeLists.txt that ask for the library and the tests. *)
From Coq Require Import ZArith List Bool String Ascii Lia.
From Verif Require Import Gen.TextLists Model.Make Model.Cmake Model.Lists Model.ListsWanted Proof.ListsRun Proof.ListsParts.
Import ListNotations.
Open Scope string_scope.
Open Scope list_scope.

Ltac changed := constructor;
  [let x := fresh "x" in let X := fresh "X" in intros x X; repeat first [rewrite value_put | rewrite value_unset | rewrite value_ask];
   repeat match type of X with existsb _ ?l = false => match goal with |- context [String.eqb x ?n] => rewrite (member n l eq_refl x X) end end; reflexivity
  |repeat first [rewrite asked_put | rewrite asked_unset | rewrite asked_ask]; rewrite ?app_nil_r, <- ?app_assoc; reflexivity].

Lemma unicode_supported : forall w, In (unicode w) supported.
Proof.
  intro w. unfold unicode. destruct (existsb _ supported) eqn:E; [|cbn; tauto].
  apply existsb_exists in E as (y & I & Y). apply String.eqb_eq in Y. now subst y.
Qed.

(** A statement about each of the versions *)
Ltac each v := let I := fresh "I" in
  match goal with H : In v supported |- _ => pose proof H as I; clear -I; cbn in I; repeat (destruct I as [<-|I]; [vm_compute; reflexivity|]); destruct I end.

Section Build.
Variable w : world.
Variable f : string -> option (state -> outcome).
Hypothesis C : clean w.

Notation change := (change w).

Ltac words K := repeat match goal with |- context [value w ?s ?x] => rewrite (literal w f C s x ltac:(cbn; tauto) K) end.

(** ** The library *)
Definition part10 : block := Eval vm_compute in part 15 7.

Ltac single v := repeat match goal with |- context [elements ?x] => let E := fresh in assert (E : elements x = [x]) by each v; rewrite E; clear E end; cbn.

Lemma run10 : forall s v, kept w s -> v = unicode w -> value w s "ANSAK_UNICODE_SUPPORT" = Some v ->
  value w s "PROJECT_SOURCE_DIR" = Some (setting w "CMAKE_CURRENT_SOURCE_DIR") ->
  exists t, run w f part10 s = Went t /\
    change ["ansakString_intfc"; "bitsDir"; "absBitsDir"; "ansakString_src"] [("add_library", words (["ansakString"; "STATIC"] ++ library_files v))] s t /\
    value w t "bitsDir" = Some (bits v) /\ value w t "absBitsDir" = Some (setting w "CMAKE_CURRENT_SOURCE_DIR" ++ "/" ++ bits v)%string.
Proof.
  intros s v K EV U P. assert (I : In v supported) by (rewrite EV; apply unicode_supported). clear EV. unfold part10.
  cmd idtac. cmd idtac. cmd ltac:(vals; rewrite U; cbn; single v).
  cmd ltac:(vals; rewrite P; cbn). cmd idtac. cmd ltac:(vals; cbn; single v).
  unfold listed at 1. rewrite value_unset. cbn. rewrite (cl_lists w C "ansakString_src") by (cbn; tauto). cbn.
  match goal with |- context [run w f (Do ?n ?a ?rest) ?st] =>
    assert (E : expand_args w st a = Some (words (["ansakString"; "STATIC"] ++ library_files v)))
  end.
  { cbn. vals. cbn. match goal with |- context [elements ?x] => assert (E : elements x = library_files v) by each v; rewrite E end. reflexivity. }
  rewrite (s_do w f _ _ _ _ _ E). clear E. cbn. rewrite s_nil.
  eexists. split; [reflexivity|]. split; [changed|]. split; vals; reflexivity.
Qed.

(** ** Its options *)
Definition part11 : block := Eval vm_compute in part 22 1.

Lemma run11 : forall s, kept w s -> (is_on w "UNIX" = true -> value w s "_isGnu" = Some (flag (gnu w))) ->
  exists t, run w f part11 s = Went t /\
    change ["_modern"] (if is_on w "UNIX" && (negb (gnu w) || modern w)
      then [("target_compile_options", words ["ansakString"; "PRIVATE"; "-Weffc++"; "-fno-operator-names"])] else []) s t.
Proof.
  intros s K G. unfold part11.
  cond (is_on w "UNIX") ltac:(base K).
  destruct (is_on w "UNIX"); [|rewrite !s_nil; cbn; eexists; split; [reflexivity|changed]]. specialize (G eq_refl). cbn [andb].
  cmd idtac.
  cond (negb (modern w)) ltac:(vals; words K; base K; cbn; unfold modern; rewrite negb_involutive).
  destruct (modern w); cbn [negb]; [|cmd idtac]; rewrite s_nil; cbn;
    (match goal with |- context [negb (gnu w) || ?b] => cond (negb (gnu w) || b) ltac:(vals; rewrite G; cbn; rewrite truth_flag; cbn) end;
     destruct (gnu w); cbn [negb orb]; cmd ltac:(vals; base K); rewrite !s_nil; cbn; rewrite ?s_nil; (eexists; split; [reflexivity|changed])).
Qed.

(** ** Its directories *)
Definition part12 : block := Eval vm_compute in part 23 3.

Lemma run12 : forall s v, v = unicode w -> value w s "bitsDir" = Some (bits v) ->
  exists t, run w f part12 s = Went t /\
    change ["ansakString_privIncludes"] [("target_include_directories", words ["ansakString"; "PRIVATE"; bits v; "source"; "PUBLIC"; "interface"])] s t.
Proof.
  intros s v EV B. assert (I : In v supported) by (rewrite EV; apply unicode_supported). clear EV. unfold part12.
  cmd idtac. cmd ltac:(vals; rewrite B; cbn; single v).
  unfold listed at 1. rewrite value_unset. cbn. rewrite (cl_lists w C "ansakString_privIncludes") by (cbn; tauto). cbn.
  match goal with |- context [run w f (Do ?n ?a ?rest) ?st] =>
    assert (E : expand_args w st a = Some (words ["ansakString"; "PRIVATE"; bits v; "source"; "PUBLIC"; "interface"]))
  end.
  { cbn. vals. cbn. match goal with |- context [elements ?x] => assert (E : elements x = [bits v; "source"]) by each v; rewrite E end. reflexivity. }
  rewrite (s_do w f _ _ _ _ _ E). clear E. cbn. rewrite s_nil.
  eexists. split; [reflexivity|]. changed.
Qed.

(** ** The tests *)
Definition part13 : block := Eval vm_compute in part 26 1.

Lemma run13 : forall s v, kept w s -> v = unicode w -> value w s "ANSAK_UNICODE_SUPPORT" = Some v ->
  value w s "PROJECT_BINARY_DIR" = Some (setting w "CMAKE_CURRENT_BINARY_DIR") ->
  value w s "absBitsDir" = Some (setting w "CMAKE_CURRENT_SOURCE_DIR" ++ "/" ++ bits v)%string ->
  value w s "_useUnitTests" = Some (flag (tested w)) -> value w s "_ansakBuildType" = Some (build_kind w) ->
  existsb includes_coverage (asked s) = root w && coverage w && tested w ->
  if coverage w && negb (root w) && negb (defined w "setup_target_for_coverage") then run w f part13 s = Fatal
  else exists t, run w f part13 s = Went t /\ change [] (tests_asked w) s t.
Proof.
  intros s v K EV U B A T D X. assert (I : In v supported) by (rewrite EV; apply unicode_supported).
  assert (TC : coverage w = true -> tested w = true) by (unfold tested; intros ->; apply orb_true_r).
  unfold part13.
  cond (tested w) ltac:(rewrite T; cbn; rewrite truth_flag).
  destruct (tested w) eqn:TW.
  2: { destruct (coverage w); [now specialize (TC eq_refl)|]. rewrite !s_nil. cbn. eexists. split; [reflexivity|]. unfold tests_asked. rewrite TW. changed. }
  cmd idtac. cmd idtac. cmd ltac:(vals; rewrite B, A; cbn).
  cmd ltac:(vals; rewrite U, B; cbn; single v). cmd ltac:(vals; rewrite B; cbn). cmd idtac.
  cond (is_on w "WIN32") ltac:(vals; base K).
  match goal with |- context [if is_on w "WIN32" then Do ?n ?a Nil else Nil] =>
    assert (H : forall s', kept w s' -> run w f (if is_on w "WIN32" then Do n a Nil else Nil) s' =
      Went (if is_on w "WIN32" then ask ("add_custom_command", words ["TARGET"; "ansakStringTest"; "POST_BUILD"] ++ copied w "gtest" ++ copied w "gtest_main") s' else s'))
  end.
  { intros s' K'. destruct (is_on w "WIN32"); [|now rewrite s_nil].
    match goal with |- context [run w f (Do ?n ?a ?rest) ?st] =>
      assert (E : expand_args w st a = Some (words ["TARGET"; "ansakStringTest"; "POST_BUILD"] ++ copied w "gtest" ++ copied w "gtest_main"))
    end.
    { cbn. base K'. unfold copied. rewrite ?app_nil_r, <- ?app_assoc. unfold setting. cbn.
      set (e1 := elements (text (given w "CMAKE_COMMAND"))). set (e2 := elements (_ ++ _)).
      change (ListsWanted.words e1) with (map (pair false) e1). change (ListsWanted.words e2) with (map (pair false) e2).
      rewrite <- ?app_assoc. cbn. reflexivity. }
    rewrite (s_do w f _ _ _ _ _ E). cbn. now rewrite s_nil. }
  rewrite H by (repeat apply kept_ask; exact K). clear H. cbn [bind].
  set (s' := if is_on w "WIN32" then _ else _).
  assert (S' : change [] ([("add_executable", words ["mkUnicodeTestData"; "mkUnicodeTestData/mkUnicodeTestData.cxx"]);
     ("target_link_libraries", words ["mkUnicodeTestData"; "PRIVATE"; "ansakString"]);
     ("add_custom_command",
       [(false, "OUTPUT"); (true, made_file w); (false, "COMMAND"); (true, "mkUnicodeTestData");
        (true, ((setting w "CMAKE_CURRENT_SOURCE_DIR" ++ "/" ++ bits v) ++ "/UnicodeData.txt")%string); (true, made_file w);
        (false, "COMMENT"); (true, "Generating test data for charIsUnicode test");
        (false, "DEPENDS"); (true, ((setting w "CMAKE_CURRENT_SOURCE_DIR" ++ "/" ++ bits v) ++ "/UnicodeData.txt")%string); (false, "mkUnicodeTestData"); (false, "VERBATIM")]);
     ("add_executable", words ("ansakStringTest" :: test_files v) ++ [(true, made_file w)]);
     ("target_include_directories",
       words ["ansakStringTest"; "PRIVATE"] ++
       [(true, "$<TARGET_PROPERTY:ansakString,INCLUDE_DIRECTORIES>"); (true, setting w "CMAKE_CURRENT_BINARY_DIR")]);
     ("target_link_libraries", words ["ansakStringTest"; "PRIVATE"; "ansakString"; "gtest_main"])] ++
    (if is_on w "WIN32" then
       [("add_custom_command", words ["TARGET"; "ansakStringTest"; "POST_BUILD"] ++ copied w "gtest" ++ copied w "gtest_main")]
     else [])) s s').
  { subst s'. destruct (is_on w "WIN32"); changed. }
  clearbody s'. destruct S' as [SV SA].
  assert (K' : kept w s') by (intros x Z; rewrite SV by reflexivity; now apply K).
  cmd idtac.
  cond (coverage w) ltac:(vals; rewrite (SV "_ansakBuildType" eq_refl), D; words K'; cbn).
  destruct (coverage w) eqn:CW; cbn [andb].
  - match goal with |- context [run w f (Do ?n ?a ?rest) ?st] =>
      assert (E : expand_args w st a = Some (words ["ansak-string-coverage"; "ansakStringTest"; "ansakStringCoverage"])) by reflexivity;
      rewrite (s_do w f n a rest st _ E); clear E
    end.
    match goal with |- context [command w f ?n ?l ?st] =>
      assert (Y : command w f n l st = if defined w n || existsb includes_coverage (asked st) then Went (ask (n, l) st) else Fatal) by reflexivity
    end.
    rewrite Y. clear Y. rewrite asked_ask, SA, !existsb_app, X. cbn [andb].
    assert (Z : forall l : list request, (forall r, In r l -> fst r <> "include") -> existsb includes_coverage l = false).
    { induction l as [|r l IH]; intro N; [reflexivity|]. cbn. rewrite IH by (intros; apply N; now right). unfold includes_coverage.
      destruct (String.eqb_spec (fst r) "include") as [e|]; [|reflexivity]. destruct (N r (or_introl eq_refl) e). }
    rewrite !(Z _).
    2-4: intros r M; repeat match goal with H : context [if ?b then _ else _] |- _ => destruct b end; cbn in M; intuition (subst; discriminate).
    cbn [orb existsb]. rewrite ?orb_false_r. destruct (root w); cbn [negb andb].
    + rewrite orb_true_r. cbn. rewrite !s_nil. cbn. rewrite ?s_nil. eexists. split; [reflexivity|]. constructor.
      * intros x _. rewrite !value_ask. now apply SV.
      * rewrite !asked_ask, SA. unfold tests_asked, data_file. rewrite TW, CW, <- EV.
        set (l := if is_on w "WIN32" then _ else _). clearbody l. rewrite <- !app_assoc. reflexivity.
    + rewrite orb_false_r. destruct (defined w "setup_target_for_coverage"); cbn [negb]; [|reflexivity].
      cbn. rewrite !s_nil. cbn. rewrite ?s_nil. eexists. split; [reflexivity|]. constructor.
      * intros x _. rewrite !value_ask. now apply SV.
      * rewrite !asked_ask, SA. unfold tests_asked, data_file. rewrite TW, CW, <- EV.
        set (l := if is_on w "WIN32" then _ else _). clearbody l. rewrite <- !app_assoc. reflexivity.
  - rewrite !s_nil. cbn. rewrite ?s_nil. eexists. split; [reflexivity|]. constructor.
    + intros x _. rewrite !value_ask. now apply SV.
    + rewrite !asked_ask, SA. unfold tests_asked, data_file. rewrite TW, CW, <- EV.
        set (l := if is_on w "WIN32" then _ else _). clearbody l. rewrite <- !app_assoc. reflexivity.
Qed.
End Build.
