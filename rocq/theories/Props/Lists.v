(* C144-C150: the text of CMakeLists.txt and packaging.cmake, read and run as it stands *)
From Coq Require Import ZArith List Bool String Ascii.
From Verif Require Import Gen.Files Gen.Text Gen.TextLists Model.Lists Model.ListsWanted Spec.Lists.
From Verif.Proof Require Import ListsAll ListsCase ListsWorlds.
Import ListNotations.
Open Scope string_scope.
Open Scope list_scope.

(* ---- C144: for all settings the text fails exactly when Model/ListsWanted.v says and else asks cmake for exactly what it
   says, in that order ---- *)
Theorem C144_text : forall w, clean w ->
  if fails w then run_lists CMakeLists_txt packaging_cmake w = Fatal
  else exists t, run_lists CMakeLists_txt packaging_cmake w = Went t /\ asked t = all_asked w /\ standard_11 w t /\
         (root w = true -> packaged w (unicode w) t).
Proof. exact lists_run. Qed.
Print Assumptions C144_text.

Example C144_case : clean debian /\ fails debian = false /\
  exists t, run_lists CMakeLists_txt packaging_cmake debian = Went t /\
  asked t =
  [("include", words ["CTest"]); ("add_subdirectory", words ["submods"]);
   ("add_compile_options", words ["-Wall"; "-Wextra"; "-Werror"]); ("add_compile_options", words ["-Wno-missing-field-initializers"]);
   ("add_library", words ["ansakString"; "STATIC"; "source/string.cxx"; "source/string_tolower.cxx"; "source/string_toutf8.cxx"; "source/string_decode_utf8.cxx";
      "source/encoding_check_predicate.cxx"; "source/string_internal.hxx"; "source/bits12/char_to_lower.cxx"; "source/bits12/char_is_unicode.cxx"]);
   ("target_compile_options", words ["ansakString"; "PRIVATE"; "-Weffc++"; "-fno-operator-names"]);
   ("target_include_directories", words ["ansakString"; "PRIVATE"; "source/bits12"; "source"; "PUBLIC"; "interface"])] ++
  tests_asked debian ++ packages_asked debian.
Proof. split; [exact debian_clean|]. split; [vm_compute; reflexivity|exact debian_run]. Qed.

(* ---- C145: one Unicode version throughout: the one asked for if it is supported, else 16 ---- *)
Theorem C145_version : forall w, clean w -> fails w = false ->
  exists t v, run_lists CMakeLists_txt packaging_cmake w = Went t /\ chosen (setting w "ANSAK_UNICODE_SUPPORT") v /\
    (forall n, In n versions -> (compiles t (lower_file n) <-> n = v) /\ (compiles t (assigned_file n) <-> n = v)) /\
    (tests t -> forall n, In n versions -> (compiles t (lower_test n) <-> n = v)) /\
    (root w = true -> value w t "CPACK_PACKAGE_NAME" = Some ("ansakString-u" ++ v)%string).
Proof. exact one_version. Qed.
Print Assumptions C145_version.

(* 12 is supported, 6 is not *)
Example C145_case : clean debian /\ fails debian = false /\ chosen (setting debian "ANSAK_UNICODE_SUPPORT") "12" /\
  clean fedora /\ fails fedora = false /\ setting fedora "ANSAK_UNICODE_SUPPORT" = "6" /\ unicode fedora = "16" /\
  lower_file "12" = "source/bits12/char_to_lower.cxx".
Proof.
  split; [exact debian_clean|]. split; [vm_compute; reflexivity|]. split; [left; split; [vm_compute; tauto|vm_compute; reflexivity]|].
  split; [exact fedora_clean|]. repeat split; vm_compute; reflexivity.
Qed.

(* ---- C146: every file of the project that is compiled, included or installed exists, or is made from files that exist ---- *)
Theorem C146_files : forall w, clean w -> fails w = false ->
  exists t, run_lists CMakeLists_txt packaging_cmake w = Went t /\ complete (setting w "CMAKE_CURRENT_SOURCE_DIR") t.
Proof. exact nothing_missing. Qed.
Print Assumptions C146_files.

Example C146_case : clean covering /\ fails covering = false /\
  needs ("include", words ["CodeCoverage"]) = ["cmake/modules/CodeCoverage.cmake"] /\ In "cmake/modules/CodeCoverage.cmake" repo_files /\
  needs ("add_library", words ["ansakString"; "STATIC"; "source/strings.cxx"]) = ["source/strings.cxx"] /\ ~ In "source/strings.cxx" repo_files.
Proof.
  split; [exact covering_clean|]. split; [vm_compute; reflexivity|]. split; [reflexivity|]. split; [apply among; reflexivity|]. split; [reflexivity|].
  apply not_among. reflexivity.
Qed.

(* ---- C147: there are unit tests exactly if the library is built by itself, they are asked for or coverage is, but not for
   Visual Studio before 2015 ---- *)
Theorem C147_tests : forall w, clean w -> fails w = false -> visual w = false ->
  exists t, run_lists CMakeLists_txt packaging_cmake w = Went t /\
    (tests t <-> root w = true \/ is_on w "TEST_ANSAKSTRING" = true \/ coverage w = true).
Proof. exact tests_wanted. Qed.
Print Assumptions C147_tests.

(* Full statement: for every Visual Studio there are tests if and only if it is of 2015 or later:
     forall w y, clean w -> fails w = false -> of_year (generator w) y -> root w = true \/ is_on w "TEST_ANSAKSTRING" = true ->
       exists t, run_lists CMakeLists_txt packaging_cmake w = Went t /\ (tests t <-> (2015 <= y)%Z).
   Missing: Visual Studio 2005 and 2008, for which it is false (below). *)
Theorem C147_studio_partial : forall w y, clean w -> fails w = false -> of_year (generator w) y -> (2010 <= y)%Z ->
  root w = true \/ is_on w "TEST_ANSAKSTRING" = true ->
  exists t, run_lists CMakeLists_txt packaging_cmake w = Went t /\ (tests t <-> (2015 <= y)%Z).
Proof. exact tests_studio. Qed.
Print Assumptions C147_studio_partial.

Theorem C147_studio_refuted : exists w t, clean w /\ of_year (generator w) 2008 /\ run_lists CMakeLists_txt packaging_cmake w = Went t /\ tests t.
Proof. exact tests_2008. Qed.
Print Assumptions C147_studio_refuted.

Example C147_case : clean debian /\ visual debian = false /\ root debian = true /\
  clean studio_2013 /\ fails studio_2013 = false /\ of_year (generator studio_2013) 2013 /\ root studio_2013 = true /\ tested studio_2013 = false /\
  clean studio_2022 /\ fails studio_2022 = false /\ of_year (generator studio_2022) 2022 /\ root studio_2022 = true /\ tested studio_2022 = true.
Proof.
  split; [exact debian_clean|]. do 2 (split; [vm_compute; reflexivity|]).
  split; [exact studio_2013_clean|]. split; [vm_compute; reflexivity|].
  split; [exists "Visual Studio 12 2013", " Win64"; split; [cbn; tauto|reflexivity]|]. do 2 (split; [vm_compute; reflexivity|]).
  split; [exact studio_2022_clean|]. split; [vm_compute; reflexivity|].
  split; [exists "Visual Studio 17 2022", ""; split; [cbn; tauto|reflexivity]|]. split; vm_compute; reflexivity.
Qed.

(* ---- C148: a coverage build has tests and a target for the coverage; with Visual Studio it is refused ----
   Full statement: whatever it is a part of:
     forall w, clean w -> coverage w = true -> visual w = false -> before_release (release w) (3, 14) = false ->
       exists t, run_lists CMakeLists_txt packaging_cmake w = Went t /\ tests t /\ sets_up_coverage t.
   Missing: builds as a part of another project that has not included CodeCoverage itself, for which it is false (below). *)
Theorem C148_coverage_partial : forall w, clean w -> coverage w = true -> fails w = false ->
  exists t, run_lists CMakeLists_txt packaging_cmake w = Went t /\ tests t /\ sets_up_coverage t.
Proof. exact covered. Qed.
Print Assumptions C148_coverage_partial.

Theorem C148_coverage_refuted : exists w, clean w /\ release w = (3, 25) /\ visual w = false /\ coverage w = true /\ root w = false /\
  run_lists CMakeLists_txt packaging_cmake w = Fatal.
Proof. exact part_not_covered. Qed.
Print Assumptions C148_coverage_refuted.

Theorem C148_studio : forall w, clean w -> coverage w = true -> visual w = true -> run_lists CMakeLists_txt packaging_cmake w = Fatal.
Proof. exact covered_studio. Qed.
Print Assumptions C148_studio.

Example C148_case : clean covering /\ coverage covering = true /\ fails covering = false.
Proof. split; [exact covering_clean|]. split; vm_compute; reflexivity. Qed.

(* ---- C149: packages are made of the kinds the system uses, named after the Unicode version, of version 2.0.1 ----
   Full statement: with every cmake the first line accepts and every Linux:
     forall w, before_release (release w) (3, 10) = false -> root w = true -> coverage w = false ->
       exists t, run_lists CMakeLists_txt packaging_cmake w = Went t /\ packaged w (unicode w) t,
   with RPM on all of Red Hat's systems.
   Missing: cmake before 3.14, a Linux whose lsb_release is missing (both fail) and RedHatEnterprise (it makes DEB). *)
Theorem C149_packages_partial : forall w, clean w -> fails w = false -> root w = true ->
  exists t, run_lists CMakeLists_txt packaging_cmake w = Went t /\ packaged w (unicode w) t.
Proof. exact packaged_as. Qed.
Print Assumptions C149_packages_partial.

Theorem C149_old_cmake : forall w, clean w -> root w = true -> before_release (release w) (3, 14) = true ->
  run_lists CMakeLists_txt packaging_cmake w = Fatal.
Proof. exact too_old. Qed.
Print Assumptions C149_old_cmake.

Theorem C149_old_cmake_refuted : exists w, clean w /\ release w = (3, 13) /\ before_release (release w) (3, 10) = false /\ root w = true /\ coverage w = false /\
  run_lists CMakeLists_txt packaging_cmake w = Fatal.
Proof. exact old_fails. Qed.
Print Assumptions C149_old_cmake_refuted.

Theorem C149_no_lsb_refuted : exists w, linux w = true /\ distro w = "" /\ release w = (3, 25) /\ root w = true /\ coverage w = false /\
  run_lists CMakeLists_txt packaging_cmake w = Fatal.
Proof. exact no_lsb_fails. Qed.
Print Assumptions C149_no_lsb_refuted.

Theorem C149_redhat_refuted : exists w t, clean w /\ distro w = "RedHatEnterprise" /\ run_lists CMakeLists_txt packaging_cmake w = Went t /\
  value w t "CPACK_GENERATOR" = Some "TGZ;DEB".
Proof. exact rhel_debs. Qed.
Print Assumptions C149_redhat_refuted.

Example C149_case : clean fedora /\ fails fedora = false /\ root fedora = true /\ package_kinds fedora = Some "TGZ;RPM" /\ package_kinds debian = Some "TGZ;DEB" /\
  package_kinds studio_2022 = Some "TGZ;NSIS;WIX" /\ clean old_cmake /\ root old_cmake = true /\ before_release (release old_cmake) (3, 14) = true.
Proof.
  split; [exact fedora_clean|]. do 5 (split; [vm_compute; reflexivity|]). split; [exact old_clean|]. split; vm_compute; reflexivity.
Qed.

(* ---- C150: exactly the public headers are installed, and they include by name only what is installed with them ---- *)
Theorem C150_headers : forall w, clean w -> fails w = false -> root w = true ->
  exists t, run_lists CMakeLists_txt packaging_cmake w = Went t /\
    (forall h, installed t h <-> In h public_headers) /\
    (forall h lines l x, installed t h -> In (h, lines) Text.files -> In l lines -> included l = Some x ->
       exists h', installed t h' /\ base "" h' = x).
Proof. exact headers_complete. Qed.
Print Assumptions C150_headers.

Example C150_case : clean debian /\ fails debian = false /\ root debian = true /\
  In ("interface/string_trim.hxx", string_trim_hxx) Text.files /\ In "#include ""string.hxx""" string_trim_hxx /\
  included "#include ""string.hxx""" = Some "string.hxx" /\ base "" "interface/string.hxx" = "string.hxx".
Proof.
  split; [exact debian_clean|]. do 2 (split; [vm_compute; reflexivity|]). split; [unfold Text.files; do 8 right; now left|].
  split; [apply among; vm_compute; reflexivity|]. split; reflexivity.
Qed.
