(* C136-C141: FindANSAK.cmake, how another project finds the installation *)
From Coq Require Import ZArith List Bool String Ascii.
From Verif Require Import Model.Make Model.Unix Model.Nsis Model.Find Spec.Install Spec.Unix Spec.Find.
From Verif.Proof Require Import InstallCase UnixCase NsisCase Find FindCase.
Import ListNotations.
Open Scope string_scope.
Open Scope list_scope.

(* ---- C136: on Unix the installation named by ANSAK_DIR is found ----
   Full statement: given as a variable or in the environment, and preferred to any other.
   Missing: in the environment ANSAK_DIR has no effect but to hide every other installation, for the result goes to
   the variable _loctaor (C136_environment, C136_environment_refuted); directories of CMAKE_PREFIX_PATH come first
   (C136_preferred_refuted). *)
Theorem C136_variable_partial : forall s d r, unix s = true -> ansak_dir s = Some r ->
  there d (r ++ archive_file) -> there d (main_header r) ->
  clear s d Library archive -> clear s d Header "string.hxx" ->
  exists f, find_ansak s d = Found f /\ string_lib f = Exactly (r ++ archive_file) /\ includes f r.
Proof. exact unix_found. Qed.
Print Assumptions C136_variable_partial.

(* what make install has installed is found *)
Theorem C136_installed_partial : forall sudo prefix here config d0 d s data,
  make_install sudo prefix here config d0 = (Returned tt, d) ->
  look d0 (here ++ ["interface"; "string.hxx"]) = Some (File data) ->
  unix s = true -> ansak_dir s = Some prefix ->
  clear s d Library archive -> clear s d Header "string.hxx" ->
  exists f, find_ansak s d = Found f /\ string_lib f = Exactly (prefix ++ archive_file) /\ includes f prefix.
Proof. exact unix_installed. Qed.
Print Assumptions C136_installed_partial.

Theorem C136_environment : forall s d r, unix s = true -> ansak_dir s = None -> env_ansak_dir s = Some r ->
  (forall f, find_ansak s d = Found f -> string_lib f = Exactly []) /\
  ((forall x, In x (earlier s Header ++ ["include"; "ansak"] :: later s Header) -> ~ there d (x ++ ["string.hxx"])) ->
   forall f, find_ansak s d <> Found f).
Proof. exact unix_environment. Qed.
Print Assumptions C136_environment.

Theorem C136_environment_refuted : exists s d r, unix s = true /\ ansak_dir s = None /\ env_ansak_dir s = Some r /\
  there d (r ++ archive_file) /\ there d (main_header r) /\ clear s d Library archive /\ clear s d Header "string.hxx" /\
  find_ansak s d = SendError.
Proof. exact env_lost. Qed.
Print Assumptions C136_environment_refuted.

Theorem C136_preferred_refuted : exists s d r f, unix s = true /\ ansak_dir s = Some r /\
  there d (r ++ archive_file) /\ there d (main_header r) /\
  find_ansak s d = Found f /\ string_lib f <> Exactly (r ++ archive_file).
Proof. exact prefix_first. Qed.
Print Assumptions C136_preferred_refuted.

Example C136_case : there in_opt (opt ++ archive_file) /\ there in_opt (main_header opt) /\
  (exists f, find_ansak (linux (Some opt) None) in_opt = Found f /\
     string_lib f = Exactly ["opt"; "ansak"; "lib"; "libansakString.a"] /\ include_path f = Some ["opt"; "ansak"; "include"]) /\
  run to_usr with_usr = Returned tt /\
  look with_usr (sources ++ ["interface"; "string.hxx"]) = Some (File [72%Z]) /\
  (exists f, find_ansak (linux (Some ["usr"]) None) (after to_usr with_usr) = Found f /\ include_path f = None).
Proof.
  split; [eexists; reflexivity|]. split; [eexists; reflexivity|].
  split; [eexists; split; [vm_compute; reflexivity|split; reflexivity]|].
  split; [exact usr_installs|]. split; [reflexivity|]. eexists. split; [vm_compute; reflexivity|reflexivity].
Qed.

(* ---- C137: on Windows the installation is found, and every configuration gets the library built for it ----
   Full statement: for the installer and for make.py install, with any generator.
   Missing: the library of Win32/MinSizeRel after make.py install (C108); generators other than Visual Studio, which
   have no platform. *)
Theorem C137_installer : forall here d0 d1 d2 pkg inst exe d d' s, gather here d0 = (Returned tt, d1) ->
  (forall p, ours (here ++ ["build"; "nsis"]) p -> look d2 p = look d1 p) ->
  pack (here ++ ["build"; "nsis"]) d2 = Some pkg ->
  install_section pkg inst exe d = (Returned tt, d') ->
  unix s = false -> chosen s inst -> In (platform s) architectures -> visual_studio s = true ->
  clear s d' Header "string.hxx" ->
  exists f, find_ansak s d' = Found f /\ includes f inst /\
    forall c, In c configurations -> exists data,
      look d0 (here ++ Install.built (platform s) c library) = Some (File data) /\
      look d' (expand (string_lib f) c) = Some (File data).
Proof. exact installer_found. Qed.
Print Assumptions C137_installer.

Theorem C137_make_py_partial : forall prefix here d d' s, install prefix here d = (Returned tt, d') ->
  unix s = false -> chosen s prefix -> In (platform s) architectures -> visual_studio s = true ->
  clear s d' Header "string.hxx" ->
  exists f, find_ansak s d' = Found f /\ includes f prefix /\
    forall c, In c configurations -> (platform s <> "Win32" \/ c <> "MinSizeRel") -> exists data,
      look d (here ++ Install.built (platform s) c library) = Some (File data) /\
      look d' (expand (string_lib f) c) = Some (File data).
Proof. exact make_py_found. Qed.
Print Assumptions C137_make_py_partial.

Example C137_case : run (gather src) (disk_of []) = Returned tt /\ pack nsis_root gathered_disk = Some the_package /\
  run (install_section the_package data_dir [85%Z]) machine2 = Returned tt /\
  chosen (windows "Win32" None false) data_dir /\ visual_studio (windows "Win32" None false) = true /\
  (exists f, find_ansak (windows "Win32" None false) after_setup = Found f /\
     expand (string_lib f) "MinSizeRel" = ["C:"; "ProgramData"; "lib"; "Win32"; "MinSizeRel"; "ansakString.lib"]).
Proof.
  split; [exact gather_runs|]. split; [exact the_package_packed|]. split; [exact setup_runs|].
  split; [now apply by_default|]. split; [reflexivity|]. eexists. split; [vm_compute; reflexivity|reflexivity].
Qed.

(* ---- C138: on Windows all documented layouts are found ----
   Full statement: <dir>/lib, <dir>/lib/Debug and <dir>/lib/<architecture>/Debug.
   Missing: lib/Debug is never looked at (C138_case_2), lib only if no platform is given (C138_case_1). *)
Theorem C138_layouts_partial : forall s d r, unix s = false -> chosen s r ->
  ((exists n, architecture (platform s) n /\ there d (r ++ ["lib"; n; "Debug"; library])) \/
   (~ In (platform s) platforms /\ there d (r ++ ["lib"; library]))) ->
  there d (main_header r) -> clear s d Header "string.hxx" ->
  exists f, find_ansak s d = Found f /\ includes f r /\ there d (expand (string_lib f) "Debug") /\
    exists q, layout r (platform s) q /\ expand (string_lib f) "Debug" = q.
Proof. exact layouts. Qed.
Print Assumptions C138_layouts_partial.

Theorem C138_case_1 : forall s d r, unix s = false -> chosen s r -> In (platform s) platforms ->
  (forall n, ~ there d (r ++ ["lib"; n; "Debug"; library])) -> find_ansak s d = Fatal.
Proof. exact case_1_never. Qed.
Print Assumptions C138_case_1.

Theorem C138_case_2 : forall s d r, unix s = false -> chosen s r ->
  (forall n, ~ there d (r ++ ["lib"; n; "Debug"; library])) -> ~ there d (r ++ ["lib"; library]) ->
  find_ansak s d = Fatal.
Proof. exact case_2_never. Qed.
Print Assumptions C138_case_2.

Theorem C138_case_1_refuted : exists s d r, unix s = false /\ chosen s r /\ there d (main_header r) /\ clear s d Header "string.hxx" /\
  In (platform s) architectures /\ there d (r ++ ["lib"; library]) /\ find_ansak s d = Fatal.
Proof. exact case_1_lost. Qed.
Print Assumptions C138_case_1_refuted.

Theorem C138_case_2_refuted : exists s d r, unix s = false /\ chosen s r /\ there d (main_header r) /\ clear s d Header "string.hxx" /\
  there d (r ++ ["lib"; "Debug"; library]) /\ forall f, find_ansak s d <> Found f.
Proof. exact case_2_lost. Qed.
Print Assumptions C138_case_2_refuted.

Example C138_case : architecture "x64" "amd64" /\
  (exists f, find_ansak (windows "x64" (Some at_c) false) (disk_with [main_header at_c; at_c ++ ["lib"; "amd64"; "Debug"; library]]) = Found f /\
     expand (string_lib f) "Debug" = at_c ++ ["lib"; "amd64"; "Debug"; library]) /\
  (exists f, find_ansak (windows "" (Some at_c) false) (disk_with [main_header at_c; at_c ++ ["lib"; library]]) = Found f /\
     string_lib f = Exactly (at_c ++ ["lib"; library])).
Proof.
  split; [constructor; cbn; tauto|]. split; eexists; (split; [vm_compute; reflexivity|reflexivity]).
Qed.

(* ---- C139: the directory of the headers is passed to the compiler unless ANSAK_ISOLATE is set ----
   Full statement: include_directories is called with ANSAK_INCLUDE's value.
   Missing: it is called with the name of the variable (C139_literal, whatever is found). *)
Theorem C139_literal : forall s d f, find_ansak s d = Found f -> forall x, In x (included f) -> x = "ANSAK_INCLUDE".
Proof. exact literal. Qed.
Print Assumptions C139_literal.

Theorem C139_included_refuted : exists s d f p, isolate s = false /\ find_ansak s d = Found f /\ include_path f = Some p /\
  there d (p ++ ["ansak"; "string.hxx"]) /\ ~ In (spelt p) (included f).
Proof. exact not_included. Qed.
Print Assumptions C139_included_refuted.

Example C139_case : exists f, find_ansak (linux (Some opt) None) in_opt = Found f /\ included f = ["ANSAK_INCLUDE"] /\
  spelt ["opt"; "ansak"; "include"] = "/opt/ansak/include".
Proof. eexists. split; [vm_compute; reflexivity|split; reflexivity]. Qed.

(* ---- C140: what is reported exists ----
   Full statement: every library, for every configuration.
   Missing: of the libraries by configuration only the one for Debug is looked for (C140_release_refuted); with
   ANSAK_DIR in the environment on Unix the library is the empty string (C136). *)
Theorem C140_reported_partial : forall s d f, find_ansak s d = Found f ->
  (exists x, there d (x ++ ["string.hxx"])) /\
  ((unix s = true -> ansak_dir s = None -> env_ansak_dir s = None) ->
     forall p, string_lib f = Exactly p -> there d p) /\
  (forall p, ansak_lib f = Some (Exactly p) -> there d p) /\
  (forall p, sqlite_lib f = Some (Exactly p) -> there d p /\ sqlite3 s = true).
Proof. exact exists_there. Qed.
Print Assumptions C140_reported_partial.

Theorem C140_release_refuted : exists s d f, find_ansak s d = Found f /\ ~ there d (expand (string_lib f) "Release").
Proof. exact release_missing. Qed.
Print Assumptions C140_release_refuted.

Example C140_case : exists f, find_ansak (linux (Some opt) None)
    (disk_with [opt ++ archive_file; main_header opt; opt ++ ["lib"; "libansak.a"]; opt ++ ["include"; "ansak"; "runtime_exception.hxx"]]) = Found f /\
  ansak_lib f = Some (Exactly (opt ++ ["lib"; "libansak.a"])) /\ sqlite_lib f = None.
Proof. eexists. split; [vm_compute; reflexivity|split; reflexivity]. Qed.

(* ---- C141: with ANSAK_NO_GENERATOR_LIBS no library is given by configuration ----
   Full statement: the libraries are then single files.
   Missing: the switch changes nothing about them (C141_no_effect). *)
Theorem C141_no_effect : forall b s d f, find_ansak s d = Found f ->
  exists f', find_ansak (with_no_generator_libs b s) d = Found f' /\ string_lib f' = string_lib f /\
    ansak_lib f' = ansak_lib f /\ sqlite_lib f' = sqlite_lib f.
Proof. exact no_effect. Qed.
Print Assumptions C141_no_effect.

Theorem C141_switch_refuted : exists s d f dir n, no_generator_libs s = true /\ find_ansak s d = Found f /\ string_lib f = ByConfig dir n.
Proof. exact switch_ignored. Qed.
Print Assumptions C141_switch_refuted.

Example C141_case : (exists f, find_ansak (windows "x64" (Some at_c) false) debug_only = Found f /\ by_generator f = true) /\
  (exists f, find_ansak (windows "x64" (Some at_c) true) debug_only = Found f /\ by_generator f = false).
Proof. split; eexists; (split; [vm_compute; reflexivity|reflexivity]). Qed.
