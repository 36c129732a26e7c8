(** Lemmas about the recipes of the Makefile *)
From Coq Require Import ZArith List Bool String Ascii Lia.
From Verif Require Import Gen.TextMakefile Model.Cmake Model.Makefile Spec.Makefile.
Import ListNotations.
Open Scope string_scope.
Open Scope list_scope.

Lemma append_nil : forall s : string, (s ++ "")%string = s.
Proof. induction s as [|c s IH]; cbn; [reflexivity|]. rewrite IH. reflexivity. Qed.

Lemma append_assoc : forall a b c : string, ((a ++ b) ++ c)%string = (a ++ (b ++ c))%string.
Proof. induction a as [|x a IH]; intros b c; cbn; [reflexivity|]. rewrite IH. reflexivity. Qed.

Lemma plain_cons : forall c s, plain (String c s) -> plain_char c = true /\ plain s.
Proof. intros c s P. split; [apply P; left; reflexivity|]. intros d I. apply P. right. exact I. Qed.

Lemma plain_char_no : forall c, plain_char c = true -> Ascii.eqb c " " = false /\ Ascii.eqb c tab = false /\ Ascii.eqb c ";" = false /\
  Ascii.eqb c quote = false /\ Ascii.eqb c apostrophe = false.
Proof.
  intros c P. unfold plain_char in P. apply existsb_exists in P. destruct P as (d & I & E). apply Ascii.eqb_eq in E. subst d.
  assert (A : forallb (fun c => negb (Ascii.eqb c " ") && negb (Ascii.eqb c tab) && negb (Ascii.eqb c ";") && negb (Ascii.eqb c quote) &&
    negb (Ascii.eqb c apostrophe))%bool letters = true) by reflexivity.
  rewrite forallb_forall in A. specialize (A c I). rewrite !andb_true_iff, !negb_true_iff in A. tauto.
Qed.

Lemma plain_blank : forall s, plain s -> blank s = String.eqb s "".
Proof.
  intros [|c s] P; [reflexivity|]. destruct (plain_cons c s P) as (C & _). destruct (plain_char_no c C) as (B & _). cbn [blank]. rewrite B. reflexivity.
Qed.

Lemma tokens_within : forall s x r, plain s -> tokens (Within x) (s ++ r) = tokens (Within (x ++ s)) r.
Proof.
  induction s as [|c s IH]; intros x r P; [cbn [append]; rewrite append_nil; reflexivity|].
  destruct (plain_cons c s P) as (C & Q). destruct (plain_char_no c C) as (A & B & D & E & F).
  cbn [append tokens]. rewrite A, B, D, E, F. cbn [orb]. rewrite IH by exact Q. unfold snoc. rewrite append_assoc. reflexivity.
Qed.

Lemma tokens_between : forall s r, plain s -> s <> "" -> tokens Between (s ++ r) = tokens (Within s) r.
Proof.
  intros [|c s] r P N; [congruence|]. destruct (plain_cons c s P) as (C & Q). destruct (plain_char_no c C) as (A & B & D & E & F).
  cbn [append tokens]. rewrite A, B, D, E, F. cbn [orb]. rewrite tokens_within by exact Q. reflexivity.
Qed.

Lemma tokens_quoted : forall s x r, quotable s -> tokens (Quoted quote x) (s ++ r) = tokens (Quoted quote (x ++ s)) r.
Proof.
  induction s as [|c s IH]; intros x r P; [cbn [append]; rewrite append_nil; reflexivity|].
  assert (C : Ascii.eqb c quote = false).
  { destruct (P c (or_introl eq_refl)) as [C| ->]; [apply plain_char_no; exact C|reflexivity]. }
  cbn [append tokens]. rewrite C. rewrite IH by (intros d I; apply P; right; exact I). unfold snoc. rewrite append_assoc. reflexivity.
Qed.

Lemma plain_quotable : forall s, plain s -> quotable s.
Proof. intros s P c I. left. apply P. exact I. Qed.

(** The variables of lines 50-59 *)
Definition the_directives : list directive := Eval vm_compute in flat_map directive_of Makefile.
Lemma directives_read : flat_map directive_of Makefile = the_directives.
Proof. vm_compute. reflexivity. Qed.

Definition vars (v : settings) : settings := conditionals None v (flat_map directive_of Makefile).

Lemma vars_select : forall v, settled v ->
  vars v "CXXSELECT" = (if String.eqb (v "CXX") "" then "" else "CXX=" ++ v "CXX")%string /\
  vars v "CONFIG_SELECT" = (if String.eqb (v "CONFIG") "" then "" else """--config " ++ v "CONFIG" ++ """")%string /\
  vars v "C_SELECT" = (if String.eqb (v "CONFIG") "" then "" else """-C " ++ v "CONFIG" ++ """")%string /\
  vars v "GENERATOR" = v "GENERATOR" /\ vars v "UNICODE_VERSION" = v "UNICODE_VERSION" /\ vars v "BUILDS_RPM" = v "BUILDS_RPM" /\
  vars v "BUILDS_DEB" = v "BUILDS_DEB".
Proof.
  intros v (X & C & _ & _ & _ & _ & S1 & S2 & S3). unfold vars. rewrite directives_read. unfold the_directives. rewrite <- (plain_blank _ X), <- (plain_blank _ C).
  cbn [conditionals]. destruct (blank (v "CXX")) eqn:A; cbn [negb].
  - destruct (blank (v "CONFIG")) eqn:B; cbn [negb]; cbn -[append]; rewrite ?append_nil; repeat split; assumption || reflexivity.
  - change (put v "CXXSELECT" (expand v None "CXX=$(CXX)") "CONFIG") with (v "CONFIG").
    destruct (blank (v "CONFIG")) eqn:B; cbn [negb]; cbn -[append]; rewrite ?append_nil; repeat split; assumption || reflexivity.
Qed.

Ltac steps := repeat (
  cbn -[Z.eqb to_number];
  rewrite ?append_assoc;
  cbn -[Z.eqb to_number];
  first [ rewrite tokens_within by (assumption || (apply plain_cons with (c := "C"%char); assumption))
        | rewrite tokens_quoted by (assumption || (apply plain_quotable; assumption))
        | rewrite tokens_between by assumption ]);
  cbn -[Z.eqb to_number]; rewrite ?append_nil.

Definition cmake_word (v : settings) : list string := if String.eqb (v "CONFIG") "" then [] else [("--config " ++ v "CONFIG")%string].

Lemma all_recipe : rule "build/all.touch" Makefile = Some
  ["@cd build ; $(CXXSELECT) cmake ../ -DANSAK_UNICODE_SUPPORT=$(UNICODE_VERSION) -G ""$(GENERATOR)""";
   "@cmake --build build $(CONFIG_SELECT) --target ansakString"; "@touch build/all.touch"].
Proof. vm_compute. reflexivity. Qed.

Lemma all_run : forall v, settled v -> make Makefile v "build/all.touch" =
  Some [configuring v; (".", ["cmake"; "--build"; "build"] ++ cmake_word v ++ ["--target"; "ansakString"]); (".", ["touch"; "build/all.touch"])].
Proof.
  intros v S. destruct (vars_select v S) as (A & B & C & D & E & _). destruct S as (X & Y & U & G & _).
  unfold make. rewrite all_recipe. fold (vars v). generalize dependent (vars v). intros V A B C D E.
  unfold configuring, unless_empty, cmake_word, run_line. cbn -[String.eqb shell]. rewrite A, B, D, E.
  destruct (String.eqb (v "CXX") "") eqn:N; destruct (String.eqb (v "CONFIG") "") eqn:M.
  all: steps; reflexivity.
Qed.

Lemma test_recipe : rule "build/test.touch" Makefile = Some
  ["@cmake --build build $(CONFIG_SELECT) --target ansakStringTest"; "@cd build; ctest . ""$(C_SELECT)"""; "@touch build/test.touch"].
Proof. vm_compute. reflexivity. Qed.

Definition ctest_words (v : settings) : list string := if String.eqb (v "CONFIG") "" then [""] else ["-C"; v "CONFIG"].

Lemma test_run : forall v, settled v -> make Makefile v "build/test.touch" =
  Some [(".", ["cmake"; "--build"; "build"] ++ cmake_word v ++ ["--target"; "ansakStringTest"]); ("build", ["ctest"; "."] ++ ctest_words v);
        (".", ["touch"; "build/test.touch"])].
Proof.
  intros v S. destruct (vars_select v S) as (A & B & C & D & E & _). destruct S as (X & Y & U & G & _).
  unfold make. rewrite test_recipe. fold (vars v). generalize dependent (vars v). intros V A B C D E.
  unfold ctest_words, cmake_word, run_line. cbn -[String.eqb shell]. rewrite B, C.
  destruct (String.eqb (v "CONFIG") "") eqn:M.
  - steps. reflexivity.
  - apply String.eqb_neq in M. steps. reflexivity.
Qed.

Lemma rpm_recipe : rule "rpm" Makefile = Some
  ["@if [ $(BUILDS_RPM) -eq 0 ]; then 	echo RPM building requires presence of the 'rpm' tool ;else 	cd build ;	cpack . -G rpm; fi"].
Proof. vm_compute. reflexivity. Qed.

Lemma deb_recipe : rule "deb" Makefile = Some
  ["@if [ $(BUILDS_DEB) -eq 0 ]; then 	echo Debian package building requires presence of the 'dpkg-deb' tool ;else 	cd build ;	cpack . -G deb; fi"].
Proof. vm_compute. reflexivity. Qed.

Lemma rpm_run : forall v, settled v -> make Makefile v "rpm" = Some (if none (v "BUILDS_RPM") then [] else [packing "rpm"]).
Proof.
  intros v S. destruct (vars_select v S) as (_ & _ & _ & _ & _ & A & _). destruct S as (_ & _ & _ & _ & P & _).
  unfold make. rewrite rpm_recipe. fold (vars v). generalize dependent (vars v). intros V A.
  unfold none, packing, run_line. cbn -[String.eqb shell to_number Z.eqb]. rewrite A.
  destruct (string_dec (v "BUILDS_RPM") "") as [N|N]; [rewrite N; reflexivity|]. rewrite (proj2 (String.eqb_neq _ _) N).
  steps. destruct (to_number (v "BUILDS_RPM")) as [z|]; [|reflexivity]. change (to_number "0") with (Some 0%Z). cbv iota beta.
  destruct (Z.eqb z 0); reflexivity.
Qed.

Lemma deb_run : forall v, settled v -> make Makefile v "deb" = Some (if none (v "BUILDS_DEB") then [] else [packing "deb"]).
Proof.
  intros v S. destruct (vars_select v S) as (_ & _ & _ & _ & _ & _ & A). destruct S as (_ & _ & _ & _ & _ & P & _).
  unfold make. rewrite deb_recipe. fold (vars v). generalize dependent (vars v). intros V A.
  unfold none, packing, run_line. cbn -[String.eqb shell to_number Z.eqb]. rewrite A.
  destruct (string_dec (v "BUILDS_DEB") "") as [N|N]; [rewrite N; reflexivity|]. rewrite (proj2 (String.eqb_neq _ _) N).
  steps. destruct (to_number (v "BUILDS_DEB")) as [z|]; [|reflexivity]. change (to_number "0") with (Some 0%Z). cbv iota beta.
  destruct (Z.eqb z 0); reflexivity.
Qed.

Lemma build_right : forall v, settled v -> v "CONFIG" = "" -> make Makefile v "build/all.touch" =
  Some [configuring v; building v "ansakString"; (".", ["touch"; "build/all.touch"])].
Proof. intros v S E. rewrite all_run by exact S. unfold building, cmake_word, unless_empty. rewrite E. reflexivity. Qed.

Lemma config_right : forall v, settled v -> v "CONFIG" <> "" -> make Makefile v "build/all.touch" =
  Some [configuring v; (".", ["cmake"; "--build"; "build"; ("--config " ++ v "CONFIG")%string; "--target"; "ansakString"]); (".", ["touch"; "build/all.touch"])].
Proof. intros v S E. rewrite all_run by exact S. unfold cmake_word. apply String.eqb_neq in E. rewrite E. reflexivity. Qed.

Lemma test_right : forall v, settled v -> v "CONFIG" <> "" -> make Makefile v "build/test.touch" =
  Some [(".", ["cmake"; "--build"; "build"; ("--config " ++ v "CONFIG")%string; "--target"; "ansakStringTest"]); testing v; (".", ["touch"; "build/test.touch"])].
Proof. intros v S E. rewrite test_run by exact S. unfold testing, ctest_words, cmake_word, unless_empty. apply String.eqb_neq in E. rewrite E. reflexivity. Qed.

Lemma test_empty : forall v, settled v -> v "CONFIG" = "" -> make Makefile v "build/test.touch" =
  Some [building v "ansakStringTest"; ("build", ["ctest"; "."; ""]); (".", ["touch"; "build/test.touch"])].
Proof. intros v S E. rewrite test_run by exact S. unfold building, ctest_words, cmake_word, unless_empty. rewrite E. reflexivity. Qed.

(** What configure settles on Linux, with rpm but not dpkg-deb, and on macOS *)
Definition of_list (l : list (string * string)) : settings := fun x => match find (fun p => String.eqb (fst p) x) l with Some (_, y) => y | None => "" end.
Definition linux : settings := of_list [("CXX", "g++"); ("GENERATOR", "Unix Makefiles"); ("UNICODE_VERSION", "12"); ("BUILDS_RPM", "1"); ("BUILDS_DEB", "0")].
Definition macos : settings := of_list [("CXX", "clang++"); ("CONFIG", "Release"); ("GENERATOR", "Xcode"); ("UNICODE_VERSION", "16"); ("BUILDS_RPM", "0"); ("BUILDS_DEB", "0")].

Lemma plain_by : forall s, forallb plain_char (list_ascii_of_string s) = true -> plain s.
Proof. intros s F c I. rewrite forallb_forall in F. apply F. exact I. Qed.
Lemma quotable_by : forall s, forallb (fun c => plain_char c || Ascii.eqb c " ")%bool (list_ascii_of_string s) = true -> quotable s.
Proof. intros s F c I. rewrite forallb_forall in F. specialize (F c I). apply orb_true_iff in F. destruct F as [F|F]; [left; exact F|right; apply Ascii.eqb_eq; exact F]. Qed.

Ltac is_settled := repeat split; try reflexivity; try (apply plain_by; reflexivity); apply quotable_by; reflexivity.

Lemma linux_settled : settled linux.
Proof. is_settled. Qed.
Lemma macos_settled : settled macos.
Proof. is_settled. Qed.

Lemma config_fails : exists v p, settled v /\ make Makefile v "build/all.touch" = Some p /\ ~ In (building v "ansakString") p.
Proof.
  exists macos. eexists. split; [exact macos_settled|]. split; [apply config_right; [exact macos_settled|discriminate]|].
  intros [E|[E|[E|[]]]]; discriminate E.
Qed.

Lemma test_fails : exists v p, settled v /\ make Makefile v "build/test.touch" = Some p /\ ~ In (testing v) p.
Proof.
  exists linux. eexists. split; [exact linux_settled|]. split; [apply test_empty; [exact linux_settled|reflexivity]|].
  intros [E|[E|[E|[]]]]; discriminate E.
Qed.

Lemma package_right : forall v, make Makefile v "package" = Some [("build", ["make"; "package"])].
Proof.
  intros v. unfold make. replace (rule "package" Makefile) with (Some ["cd build ; make package"]) by (vm_compute; reflexivity). reflexivity.
Qed.
