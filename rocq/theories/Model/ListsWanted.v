(** What /repo/CMakeLists.txt and /repo/packaging.cmake have to ask cmake for,
    written without the text: from the settings to the requests. *)
From Coq Require Import ZArith List Bool String Ascii.
From Verif Require Import Model.Cmake Model.Lists.
Import ListNotations.
Open Scope string_scope.
Open Scope list_scope.

(** * The settings *)

Definition setting (w : world) (n : string) : string := text (given w n).
Definition is_on (w : world) (n : string) : bool := truth (setting w n).

(** Built by itself or as a part of another project: CMakeLists.txt:59-62 *)
Definition root (w : world) : bool := String.eqb (setting w "CMAKE_CURRENT_SOURCE_DIR") (setting w "CMAKE_SOURCE_DIR").

(** CMakeLists.txt:74-77 *)
Definition build_kind (w : world) : string :=
  if is_on w "CMAKE_BUILD_TYPE" then lower (setting w "CMAKE_BUILD_TYPE") else "notCoverage".
Definition coverage (w : world) : bool := String.eqb (build_kind w) "coverage".

(** CMakeLists.txt:79-87 *)
Definition generator (w : world) : string := setting w "CMAKE_GENERATOR".
Definition visual (w : world) : bool := contains "Visual Studio" (generator w).
Definition sorts_before_2015 (w : world) : bool := strless (generator w) "Visual Studio 14 2015".

(** CMakeLists.txt:69-95 *)
Definition tested (w : world) : bool :=
  (is_on w "TEST_ANSAKSTRING" || root w) && negb (visual w && sorts_before_2015 w) || coverage w.

(** CMakeLists.txt:134-152 *)
Definition supported : list string := ["7"; "8"; "9"; "10"; "11"; "12"; "13"; "14"; "15"; "16"].

Definition unicode (w : world) : string :=
  let v := setting w "ANSAK_UNICODE_SUPPORT" in if existsb (String.eqb v) supported then v else "16".

(** CMakeLists.txt:117-120, 176-179 *)
Definition gnu (w : world) : bool := String.eqb (setting w "CMAKE_CXX_COMPILER_ID") "GNU".
Definition modern (w : world) : bool := negb (version_less (setting w "CMAKE_CXX_COMPILER_VERSION") "6.0").

(** * The requests *)

Definition words (l : list string) : list (bool * string) := map (pair false) l.

(** CMakeLists.txt:99-113 *)
Definition submodules_asked (w : world) : list request :=
  if root w then
    (if String.eqb (build_kind w) "asan" then [("include", words ["FindASan"])] else []) ++
    (if tested w then
       [("include", words ["CTest"])] ++
       (if coverage w then [("include", words ["CodeCoverage"])] else []) ++
       [("add_subdirectory", words ["submods"])]
     else [])
  else [].

(** CMakeLists.txt:116-131 *)
Definition options_asked (w : world) : list request :=
  if is_on w "UNIX" then
    [("add_compile_options", words ["-Wall"; "-Wextra"; "-Werror"])] ++
    (if is_on w "COVERAGE" then [("add_compile_options", words ["-O0"; "-fprofile-arcs"; "-ftest-coverage"])] else []) ++
    (if gnu w then [("add_compile_options", words ["-Wno-missing-field-initializers"])] else [])
  else [].

(** CMakeLists.txt:160-189 *)
Definition bits (v : string) : string := ("source/bits" ++ v)%string.

Definition library_files (v : string) : list string :=
  ["source/string.cxx"; "source/string_tolower.cxx"; "source/string_toutf8.cxx"; "source/string_decode_utf8.cxx";
   "source/encoding_check_predicate.cxx"; "source/string_internal.hxx";
   (bits v ++ "/char_to_lower.cxx")%string; (bits v ++ "/char_is_unicode.cxx")%string].

Definition library_asked (w : world) : list request :=
  [("add_library", words (["ansakString"; "STATIC"] ++ library_files (unicode w)))] ++
  (if is_on w "UNIX" && (negb (gnu w) || modern w)
   then [("target_compile_options", words ["ansakString"; "PRIVATE"; "-Weffc++"; "-fno-operator-names"])] else []) ++
  [("target_include_directories", words ["ansakString"; "PRIVATE"; bits (unicode w); "source"; "PUBLIC"; "interface"])].

(** CMakeLists.txt:161, 192-230 *)
Definition data_file (w : world) : string :=
  ((setting w "CMAKE_CURRENT_SOURCE_DIR" ++ "/" ++ bits (unicode w)) ++ "/UnicodeData.txt")%string.
Definition made_file (w : world) : string := (setting w "CMAKE_CURRENT_BINARY_DIR" ++ "/char_is_unicode_test_data.hxx")%string.

Definition test_files (v : string) : list string :=
  ["test/unit/string_test.cxx"; "test/unit/string_decode_utf8_test.cxx"; "test/unit/encode_predicate_test.cxx"; "test/unit/string_splitjoin_test.cxx";
   ("test/unit/string_tolower_test" ++ v ++ ".cxx")%string; "test/unit/string_trim_test.cxx"; "test/unit/string_with_predicate_test.cxx";
   "test/unit/string_wchar_tchar.cxx"; "test/unit/string_wide_tchar.cxx"; "test/unit/char_is_unicode_test.cxx"].

Definition copied (w : world) (t : string) : list (bool * string) :=
  [(false, "COMMAND")] ++ words (elements (setting w "CMAKE_COMMAND")) ++
  words ["-E"; "copy"; ("$<TARGET_FILE:" ++ t ++ ">")%string] ++
  words (elements (setting w "CMAKE_BINARY_DIR" ++ "/" ++ setting w "CMAKE_CFG_INTDIR")%string).

Definition tests_asked (w : world) : list request :=
  if tested w then
    [("add_executable", words ["mkUnicodeTestData"; "mkUnicodeTestData/mkUnicodeTestData.cxx"]);
     ("target_link_libraries", words ["mkUnicodeTestData"; "PRIVATE"; "ansakString"]);
     ("add_custom_command",
       [(false, "OUTPUT"); (true, made_file w); (false, "COMMAND"); (true, "mkUnicodeTestData"); (true, data_file w); (true, made_file w);
        (false, "COMMENT"); (true, "Generating test data for charIsUnicode test");
        (false, "DEPENDS"); (true, data_file w); (false, "mkUnicodeTestData"); (false, "VERBATIM")]);
     ("add_executable", words ("ansakStringTest" :: test_files (unicode w)) ++ [(true, made_file w)]);
     ("target_include_directories",
       words ["ansakStringTest"; "PRIVATE"] ++
       [(true, "$<TARGET_PROPERTY:ansakString,INCLUDE_DIRECTORIES>"); (true, setting w "CMAKE_CURRENT_BINARY_DIR")]);
     ("target_link_libraries", words ["ansakStringTest"; "PRIVATE"; "ansakString"; "gtest_main"])] ++
    (if is_on w "WIN32" then
       [("add_custom_command", words ["TARGET"; "ansakStringTest"; "POST_BUILD"] ++ copied w "gtest" ++ copied w "gtest_main")]
     else []) ++
    [("add_test", words ["NAME"; "ansakStringTest"; "COMMAND"; "ansakStringTest"])] ++
    (if coverage w then [("setup_target_for_coverage", words ["ansak-string-coverage"; "ansakStringTest"; "ansakStringCoverage"])] else [])
  else [].

(** packaging.cmake:36-45, 89 *)
Definition linux (w : world) : bool := String.eqb (setting w "CMAKE_SYSTEM_NAME") "Linux".

Definition packages_asked (w : world) : list request :=
  if root w then
    [("install", words ["TARGETS"; "ansakString"; "LIBRARY"; "DESTINATION"; "lib/"]);
     ("install", words ["FILES"; "interface/string.hxx"; "interface/string_splitjoin.hxx"; "interface/string_trim.hxx"; "DESTINATION"; "include/ansak"])] ++
    (if linux w then
       [("find_program", words ["LSB_RELEASE_EXEC"; "lsb_release"]);
        ("execute_process",
          words ["COMMAND"; "/usr/bin/sh"; "/usr/bin/lsb_release"; "-is"; "OUTPUT_VARIABLE"; "DISTRO"; "OUTPUT_STRIP_TRAILING_WHITESPACE"])]
     else []) ++
    [("include", words ["CPack"])]
  else [].

Definition all_asked (w : world) : list request :=
  submodules_asked w ++ options_asked w ++ library_asked w ++ tests_asked w ++ packages_asked w.

(** What kinds of packages are made: packaging.cmake:46-71 *)
Definition package_kinds (w : world) : option string :=
  if linux w then
    Some (if existsb (String.eqb (distro w)) ["CentOS"; "Fedora"; "RedHat"] then "TGZ;RPM" else "TGZ;DEB")
  else if is_on w "WIN32" then Some "TGZ;NSIS;WIX"
  else if is_on w "APPLE" then Some "TGZ"
  else given w "CPACK_GENERATOR".

(** What CPack is told: packaging.cmake:50-87 *)
Definition packaged (w : world) (v : string) (t : state) : Prop :=
  value w t "CPACK_GENERATOR" = package_kinds w /\
  value w t "CPACK_PACKAGE_NAME" = Some ("ansakString-u" ++ v)%string /\ value w t "CPACK_DEBIAN_PACKAGE_NAME" = Some ("ansakString-" ++ v)%string /\
  (linux w = true -> existsb (String.eqb (distro w)) ["CentOS"; "Fedora"; "RedHat"] = true ->
       value w t "CPACK_RPM_PACKAGE_NAME" = Some ("ansakString-" ++ v)%string) /\
  value w t "CPACK_PACKAGE_VERSION_MAJOR" = Some "2" /\ value w t "CPACK_PACKAGE_VERSION_MINOR" = Some "0" /\ value w t "CPACK_PACKAGE_VERSION_PATCH" = Some "1" /\
  value w t "CPACK_RESOURCE_FILE_LICENSE" = Some (setting w "CMAKE_SOURCE_DIR" ++ "/NSIS/ansak-library-bsd-2clause.txt")%string /\
  value w t "CPACK_PACKAGE_ICON" = Some (setting w "CMAKE_SOURCE_DIR" ++ "/NSIS/ansak.ico")%string.

(** * When it fails *)

(** cmake is too old; coverage with Visual Studio; coverage as a part of a project
    that does not know how to set it up; cmake does not know where archives go:
    CMakeLists.txt:52, 80-82, 227-229, packaging.cmake:36 *)
Definition fails (w : world) : bool :=
  before_release (release w) (3, 10)
  || visual w && coverage w
  || coverage w && negb (root w) && negb (defined w "setup_target_for_coverage")
  || root w && before_release (release w) (3, 14).

(** C++11, for compilers other than Visual Studio: CMakeLists.txt:121-122 *)
Definition standard_11 (w : world) (t : state) : Prop :=
  is_on w "UNIX" = true -> value w t "CMAKE_CXX_STANDARD" = Some "11" /\ value w t "CMAKE_CXX_STANDARD_REQUIRED" = Some "ON".

(** * What is supposed of the settings *)

(** The variables the files set, both files throughout *)
Definition own : list string :=
  ["PROJECT_SOURCE_DIR"; "PROJECT_BINARY_DIR"; "PROJECT_VERSION"; "CMAKE_PROJECT_VERSION_MAJOR"; "CMAKE_PROJECT_VERSION_MINOR";
   "CMAKE_PROJECT_VERSION_PATCH"; "_ansakRoot"; "CMAKE_MODULE_PATH"; "_useUnitTests"; "_ansakBuildType"; "_isGnu"; "CMAKE_CXX_STANDARD";
   "CMAKE_CXX_STANDARD_REQUIRED"; "CMAKE_EXE_LINKER_FLAGS"; "DEFAULT_SUPPORTED_UNICODE_VERSION"; "ANSAK_UNICODE_SUPPORT"; "ansakString_intfc"; "bitsDir"; "absBitsDir";
   "ansakString_src"; "_modern"; "ansakString_privIncludes"; "DISTRO"; "CPACK_GENERATOR"; "CPACK_RPM_COMPONENT_INSTALL"; "CPACK_RPM_PACKAGE_NAME";
   "CPACK_RPM_FILE_NAME"; "CPACK_DEB_COMPONENT_INSTALL"; "CPACK_DEBIAN_PACKAGE_NAME"; "CPACK_DEBIAN_PACKAGE_MAINTAINER";
   "CPACK_DEBIAN_PACKAGE_DESCRIPTION"; "CPACK_DEBIAN_PACKAGE_SECTION"; "CPACK_DEBIAN_PACKAGE_HOMEPAGE"; "CPACK_DEBIAN_PACKAGE_DEPENDS";
   "CPACK_PACKAGE_NAME"; "CPACK_PACKAGE_DESCRIPTION_SUMMARY"; "CPACK_PACKAGE_VENDOR"; "CPACK_PACKAGE_VERSION_MAJOR"; "CPACK_PACKAGE_VERSION_MINOR";
   "CPACK_PACKAGE_VERSION_PATCH"; "CPACK_VERBATIM_VARIABLES"; "CPACK_RESOURCE_FILE_LICENSE"; "CPACK_PACKAGE_ICON"; "CPACK_CYGWIN_PATCH_NUMBER"].

(** [v], not in quotes, is itself within if(). *)
Definition itself (w : world) (v : string) : Prop :=
  elements v = [v] /\ existsb (String.eqb v) operators = false /\ existsb (String.eqb v) own = false /\ given w v = None.

Record clean (w : world) : Prop := {
  cl_words : forall x, In x (["coverage"; "asan"; "GNU"; "6.0"] ++ supported) -> given w x = None;
  cl_lists : forall x, In x ["ansakString_intfc"; "ansakString_src"; "ansakString_privIncludes"] -> stored w x = None;
  cl_kind : itself w (build_kind w);
  cl_generator : itself w (generator w);
  cl_distro : linux w = true -> itself w (distro w) }.
