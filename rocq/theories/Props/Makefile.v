(* C156: which programs the recipes of the Makefile, read and run as they stand, run with which words *)
From Coq Require Import ZArith List Bool String Ascii.
From Verif Require Import Gen.TextMakefile Model.Makefile Spec.Makefile.
From Verif.Proof Require Import Makefile.
Import ListNotations.
Open Scope string_scope.
Open Scope list_scope.

(* ---- C156: make configures and builds with what configure settled, tests the same configuration, and makes packages where it can ---- *)

(* Full statement: without the condition on CONFIG.
   Missing: it is false if there is a CONFIG, as on macOS: --config and its value are handed over as one word (C156_config). *)
Theorem C156_build_partial : forall v, settled v -> v "CONFIG" = "" -> make Makefile v "build/all.touch" =
  Some [configuring v; building v "ansakString"; (".", ["touch"; "build/all.touch"])].
Proof. exact build_right. Qed.
Print Assumptions C156_build_partial.

Theorem C156_config : forall v, settled v -> v "CONFIG" <> "" -> make Makefile v "build/all.touch" =
  Some [configuring v; (".", ["cmake"; "--build"; "build"; ("--config " ++ v "CONFIG")%string; "--target"; "ansakString"]); (".", ["touch"; "build/all.touch"])].
Proof. exact config_right. Qed.
Print Assumptions C156_config.

Theorem C156_config_refuted : exists v p, settled v /\ make Makefile v "build/all.touch" = Some p /\ ~ In (building v "ansakString") p.
Proof. exact config_fails. Qed.
Print Assumptions C156_config_refuted.

(* Full statement: without the condition on CONFIG.
   Missing: it is false if there is no CONFIG, as on Linux: ctest is given an empty word (C156_test_empty). *)
Theorem C156_test_partial : forall v, settled v -> v "CONFIG" <> "" -> make Makefile v "build/test.touch" =
  Some [(".", ["cmake"; "--build"; "build"; ("--config " ++ v "CONFIG")%string; "--target"; "ansakStringTest"]); testing v; (".", ["touch"; "build/test.touch"])].
Proof. exact test_right. Qed.
Print Assumptions C156_test_partial.

Theorem C156_test_empty : forall v, settled v -> v "CONFIG" = "" -> make Makefile v "build/test.touch" =
  Some [building v "ansakStringTest"; ("build", ["ctest"; "."; ""]); (".", ["touch"; "build/test.touch"])].
Proof. exact test_empty. Qed.
Print Assumptions C156_test_empty.

Theorem C156_test_refuted : exists v p, settled v /\ make Makefile v "build/test.touch" = Some p /\ ~ In (testing v) p.
Proof. exact test_fails. Qed.
Print Assumptions C156_test_refuted.

Theorem C156_rpm : forall v, settled v -> make Makefile v "rpm" = Some (if none (v "BUILDS_RPM") then [] else [packing "rpm"]).
Proof. exact rpm_run. Qed.
Print Assumptions C156_rpm.

Theorem C156_deb : forall v, settled v -> make Makefile v "deb" = Some (if none (v "BUILDS_DEB") then [] else [packing "deb"]).
Proof. exact deb_run. Qed.
Print Assumptions C156_deb.

Theorem C156_package : forall v, make Makefile v "package" = Some [("build", ["make"; "package"])].
Proof. exact package_right. Qed.
Print Assumptions C156_package.

Example C156_case : settled linux /\ linux "CONFIG" = "" /\ settled macos /\ macos "CONFIG" = "Release" /\
  none (linux "BUILDS_RPM") = false /\ none (linux "BUILDS_DEB") = true /\
  configuring linux = ("build", ["CXX=g++"; "cmake"; "../"; "-DANSAK_UNICODE_SUPPORT=12"; "-G"; "Unix Makefiles"]) /\
  testing macos = ("build", ["ctest"; "."; "-C"; "Release"]) /\
  make Makefile linux "rpm" = Some [packing "rpm"] /\ make Makefile linux "deb" = Some [].
Proof. split; [exact linux_settled|]. split; [reflexivity|]. split; [exact macos_settled|]. vm_compute. repeat split. Qed.
