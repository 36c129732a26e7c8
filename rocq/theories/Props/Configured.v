(* C158: from the options of configure to the programs make runs, through config.make *)
From Coq Require Import ZArith List Bool String Ascii.
From Verif Require Import Gen.TextMakefile Model.Makefile Spec.Makefile.
From Verif Require Model.Configure Spec.Configure Proof.Configure.
From Verif.Proof Require Import Configured.
Import ListNotations.
Open Scope string_scope.
Open Scope list_scope.

(* ---- C158: what is given to configure is what make builds and tests with ----
   Full statement: the three systems alike, with a word for each option and its value, and no empty words.
   Missing: it is false of the configuration on macOS (C158_mac_refuted) and of ctest elsewhere (the empty word below). *)
Theorem C158_elsewhere_partial : forall w args v, Model.Configure.settle w args = Model.Configure.Go v ->
  plain (Model.Configure.compiler v) -> plain (Model.Configure.unicode_version v) -> Model.Configure.system_of w <> Model.Configure.Darwin ->
  make Makefile (read w v) "build/all.touch" =
    Some [asked "Unix Makefiles" v; (".", ["cmake"; "--build"; "build"; "--target"; "ansakString"]); (".", ["touch"; "build/all.touch"])] /\
  make Makefile (read w v) "build/test.touch" =
    Some [(".", ["cmake"; "--build"; "build"; "--target"; "ansakStringTest"]); ("build", ["ctest"; "."; ""]); (".", ["touch"; "build/test.touch"])].
Proof. exact elsewhere. Qed.
Print Assumptions C158_elsewhere_partial.

Theorem C158_mac : forall w args v, Model.Configure.settle w args = Model.Configure.Go v ->
  plain (Model.Configure.compiler v) -> plain (Model.Configure.unicode_version v) -> Model.Configure.system_of w = Model.Configure.Darwin ->
  make Makefile (read w v) "build/all.touch" =
    Some [asked "Xcode" v; (".", ["cmake"; "--build"; "build"; "--config Release"; "--target"; "ansakString"]); (".", ["touch"; "build/all.touch"])] /\
  make Makefile (read w v) "build/test.touch" =
    Some [(".", ["cmake"; "--build"; "build"; "--config Release"; "--target"; "ansakStringTest"]); ("build", ["ctest"; "."; "-C"; "Release"]); (".", ["touch"; "build/test.touch"])].
Proof. exact on_darwin. Qed.
Print Assumptions C158_mac.

(* with no options at all *)
Theorem C158_mac_refuted : exists w v p, Model.Configure.settle w [] = Model.Configure.Go v /\ plain (Model.Configure.compiler v) /\
  plain (Model.Configure.unicode_version v) /\ make Makefile (read w v) "build/all.touch" = Some p /\
  ~ In (".", ["cmake"; "--build"; "build"; "--config"; "Release"; "--target"; "ansakString"]) p /\ read w v "CONFIG" = "Release".
Proof. exact mac_goes. Qed.
Print Assumptions C158_mac_refuted.

(* a package is made exactly where configure found the program for it *)
Theorem C158_packages : forall w v, plain (Model.Configure.compiler v) -> plain (Model.Configure.unicode_version v) ->
  (make Makefile (read w v) "rpm" = Some [("build", ["cpack"; "."; "-G"; "rpm"])] <->
     Model.Configure.system_of w = Model.Configure.Other /\ Model.Configure.has_rpm w = true) /\
  (make Makefile (read w v) "deb" = Some [("build", ["cpack"; "."; "-G"; "deb"])] <->
     Model.Configure.system_of w = Model.Configure.Other /\ Model.Configure.has_dpkg w = true) /\
  (make Makefile (read w v) "rpm" = Some [] \/ make Makefile (read w v) "rpm" = Some [("build", ["cpack"; "."; "-G"; "rpm"])]) /\
  (make Makefile (read w v) "deb" = Some [] \/ make Makefile (read w v) "deb" = Some [("build", ["cpack"; "."; "-G"; "deb"])]).
Proof. exact packages. Qed.
Print Assumptions C158_packages.

Example C158_case : let v := Model.Configure.Build_values "/usr" "clang++-15" "14" in
  Model.Configure.settle Proof.Configure.linux ["--compiler"; "g++"; "--unicode-version"; "14"; "--compiler"; "clang++-15"] = Model.Configure.Go v /\
  plain (Model.Configure.compiler v) /\ plain (Model.Configure.unicode_version v) /\
  Model.Configure.system_of Proof.Configure.linux = Model.Configure.Other /\
  asked "Unix Makefiles" v = ("build", ["CXX=clang++-15"; "cmake"; "../"; "-DANSAK_UNICODE_SUPPORT=14"; "-G"; "Unix Makefiles"]) /\
  make Makefile (read Proof.Configure.linux v) "deb" = Some [("build", ["cpack"; "."; "-G"; "deb"])].
Proof.
  split; [reflexivity|]. split; [now apply plain_checked|]. split; [now apply plain_checked|].
  split; [reflexivity|]. split; [reflexivity|]. vm_compute. reflexivity.
Qed.
