(** What is made from what, as /repo/CMakeLists.txt, the includes of the sources
    and /repo/NSIS/ansak-string.nsi say, without the code that decides
    whether to make it again. *)
From Coq Require Import ZArith List Bool String Ascii.
From Verif Require Import Model.Make Model.Stamps.
Import ListNotations.
Open Scope string_scope.
Open Scope list_scope.

(** The library: CMakeLists.txt 160-174, with the headers these files include;
    how to build it is in CMakeLists.txt itself.  [v] is the Unicode version. *)
Definition library_needs (v : string) : list path :=
  [["CMakeLists.txt"];
   ["source"; "string.cxx"]; ["source"; "string_tolower.cxx"];
   ["source"; "string_toutf8.cxx"]; ["source"; "string_decode_utf8.cxx"];
   ["source"; "encoding_check_predicate.cxx"]; ["source"; "string_internal.hxx"];
   ["source"; append "bits" v; "char_to_lower.cxx"];
   ["source"; append "bits" v; "char_is_unicode.cxx"];
   ["interface"; "string.hxx"]; ["interface"; "internal"; "string_decode_utf8.hxx"]].

(** The test: CMakeLists.txt 193-218, linked with the library. *)
Definition test_sources (v : string) : list path :=
  [["mkUnicodeTestData"; "mkUnicodeTestData.cxx"];
   ["interface"; "string_splitjoin.hxx"]; ["interface"; "string_trim.hxx"];
   ["test"; "unit"; "string_test.cxx"]; ["test"; "unit"; "string_decode_utf8_test.cxx"];
   ["test"; "unit"; "encode_predicate_test.cxx"]; ["test"; "unit"; "string_splitjoin_test.cxx"];
   ["test"; "unit"; append "string_tolower_test" (append v ".cxx")];
   ["test"; "unit"; "string_trim_test.cxx"]; ["test"; "unit"; "string_with_predicate_test.cxx"];
   ["test"; "unit"; "string_wchar_tchar.cxx"]; ["test"; "unit"; "string_wide_tchar.cxx"];
   ["test"; "unit"; "char_is_unicode_test.cxx"]].

(** and what they take besides: the data the test is generated from
    (CMakeLists.txt 196-202) and the test framework (111). *)
Definition test_data (v : string) : path := ["source"; append "bits" v; "UnicodeData.txt"].
Definition framework : path := ["submods"; "CMakeLists.txt"].

(** The installer: ansak-string.nsi 82, 97, 136-156. *)
Definition installer_scripts : list path :=
  [["NSIS"; "ansak-string.nsi"]; ["NSIS"; "ansak-library-bsd-2clause.txt"]; ["NSIS"; "ansak.ico"]].
Definition cmake_module : path := ["FindANSAK.cmake"].

Definition versions : list string :=
  ["7"; "8"; "9"; "10"; "11"; "12"; "13"; "14"; "15"; "16"].

(** The settings are part of everything. *)
Definition needs (settings : path) (v : string) (x : product) : list path :=
  settings :: library_needs v ++
  match x with
  | Libraries => []
  | Tests => test_sources v ++ [test_data v; framework]
  | Installer => test_sources v ++ [test_data v; framework] ++ installer_scripts ++ [cmake_module]
  end.

(** What was made is made from these files as they are. *)
Definition fresh (w : world) (x : product) (ps : list path) : Prop :=
  forall p, In p ps -> made w x p = current w p.

(** No file is removed, and none is given an old time stamp. *)
Definition only_written (e : event) : Prop :=
  match e with Delete _ | Restore _ _ _ => False | _ => True end.

(** The other programs always work, and no file is given an old time stamp. *)
Definition always_works (e : event) : Prop :=
  match e with
  | Restore _ _ _ => False
  | Run _ t => forall x, t x = Work
  | _ => True
  end.

(** On Unix: between a configuration and the next, nothing is removed and
    nothing cleaned. *)
Definition only_changed (e : unix_event) : Prop :=
  match e with UDelete _ | MakeClean | Configure _ => False | _ => True end.

(** Nobody configures again, cleans or tests, and config.make stays as it is. *)
Definition settings_kept (e : unix_event) : Prop :=
  match e with
  | UWrite p _ => p <> ["config.make"]
  | UDelete p => p <> ["config.make"]
  | MakeAll _ => True
  | Configure _ | MakeTest _ | MakeClean => False
  end.
