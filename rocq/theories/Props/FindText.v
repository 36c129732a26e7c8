(* C143: the text of FindANSAK.cmake, read and run as it stands *)
From Coq Require Import ZArith List Bool String Ascii.
From Verif Require Import Gen.TextScripts Model.Make Model.Find Model.Cmake Model.FindText Spec.Install Spec.Unix Spec.Find.
From Verif.Proof Require Import FindCase FindRest FindTextCase.
Import ListNotations.
Open Scope string_scope.
Open Scope list_scope.

(* ---- C143: for all variables, environments, search directories and disks the text ends as Model/Find.v says and sets
   the variables it says, and so C136-C141 hold of it; it uses nothing Model/Cmake.v does not know ---- *)
Theorem C143_text : forall s d vs env, stands_for s vs env -> ordinary s ->
  reports (run_text FindANSAK_cmake s d vs env) (find_ansak s d).
Proof. exact find_text_runs. Qed.
Print Assumptions C143_text.

Theorem C143_known : forall s d vs env, stands_for s vs env -> ordinary s -> run_text FindANSAK_cmake s d vs env <> Stuck.
Proof. exact text_never_stuck. Qed.
Print Assumptions C143_known.

Theorem C143_found : forall s d vs env r, stands_for s vs env -> ordinary s -> unix s = true -> ansak_dir s = Some r ->
  there d (r ++ archive_file) -> there d (main_header r) -> clear s d Find.Library archive -> clear s d Find.Header "string.hxx" ->
  exists st, run_text FindANSAK_cmake s d vs env = Went st /\ value st "ANSAK_FOUND" = Some "True" /\
    value st "ANSAK_STRING_LIB" = Some (spell (r ++ archive_file)).
Proof. exact text_found. Qed.
Print Assumptions C143_found.

(* with ANSAK_DIR in the environment ANSAK_FOUND may be true, but the library is always the empty string *)
Theorem C143_environment : forall s d vs env r st, stands_for s vs env -> ordinary s -> unix s = true -> ansak_dir s = None ->
  env_ansak_dir s = Some r -> run_text FindANSAK_cmake s d vs env = Went st -> value st "ANSAK_STRING_LIB" = Some "".
Proof. exact text_environment. Qed.
Print Assumptions C143_environment.

Theorem C143_environment_refuted : exists s d vs env st, stands_for s vs env /\ ordinary s /\ env "ANSAK_DIR" = "/opt/ansak" /\
  there d (opt ++ archive_file) /\
  run_text FindANSAK_cmake s d vs env = Went st /\ value st "ANSAK_FOUND" = Some "True" /\ value st "ANSAK_STRING_LIB" = Some "".
Proof. exact environment_lost. Qed.
Print Assumptions C143_environment_refuted.

Theorem C143_included : forall s d vs env st, stands_for s vs env -> ordinary s ->
  run_text FindANSAK_cmake s d vs env = Went st -> forall x, In x (incs st) -> x = "ANSAK_INCLUDE".
Proof. exact text_included. Qed.
Print Assumptions C143_included.

Example C143_case : stands_for (linux (Some opt) None) linux_vars no_env /\ ordinary (linux (Some opt) None) /\
  (exists st, run_text FindANSAK_cmake (linux (Some opt) None) in_opt linux_vars no_env = Went st /\
     forall x v, In (x, v) [("ANSAK_STRING_LIB", Some "/opt/ansak/lib/libansakString.a"); ("ANSAK_INCLUDE", Some "/opt/ansak/include"); ("ANSAK_LIB", None)] ->
       value st x = v) /\
  stands_for (windows "x64" (Some at_c) false) windows_vars no_env /\ ordinary (windows "x64" (Some at_c) false) /\
  (exists st, run_text FindANSAK_cmake (windows "x64" (Some at_c) false) amd64_disk windows_vars no_env = Went st /\
     forall x v, In (x, v) [("ANSAK_STRING_LIB", Some "C:/ansak/lib/amd64/$<CONFIG>/ansakString.lib"); ("ANSAK_LIB_BY_GENERATOR", Some "True")] ->
       value st x = v).
Proof.
  split; [exact linux_stands|]. split; [apply linux_ordinary; cbn; tauto|]. split; [exact linux_runs|].
  split; [exact windows_stands|]. split; [apply windows_ordinary|exact windows_runs].
Qed.
