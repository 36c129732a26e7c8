(* C155: what configure.cmd, read and run as it stands, runs *)
From Coq Require Import ZArith List Bool String.
From Verif Require Import Gen.TextCmd Model.Cmd Spec.Cmd.
From Verif.Proof Require Import Cmd.
Import ListNotations.
Open Scope string_scope.
Open Scope list_scope.

(* ---- C155: configure.cmd configures with python, or else python3, if it is of version 3, and with the python given by --python ---- *)

(* Full statement: forall m args, plain args -> exists r, run_cmd configure_cmd m args = Some r /\
   configuring r = match chosen m with Some p => [p :: "configure.py" :: p :: args] | None => [] end.
   Missing: it is false if a python that is asked for its version is not there (C155_absent): 9009 is not below 3. *)
Theorem C155_chosen_partial : forall m args, plain args -> there m "python" -> (modern m "python" = true \/ there m "python3") ->
  exists r, run_cmd configure_cmd m args = Some r /\
    configuring r = match chosen m with Some p => [p :: "configure.py" :: p :: args] | None => [] end.
Proof. exact chosen_right. Qed.
Print Assumptions C155_chosen_partial.

Theorem C155_absent : forall m args, plain args -> version m "python" = None ->
  exists r, run_cmd configure_cmd m args = Some r /\ configuring r = ["python" :: "configure.py" :: "python" :: args].
Proof. exact absent_right. Qed.
Print Assumptions C155_absent.

Theorem C155_absent_refuted : exists m args r, plain args /\ run_cmd configure_cmd m args = Some r /\ chosen m = Some "python3" /\
  forall w, In w (configuring r) -> exists q, w = "python" :: q /\ ~ there m "python".
Proof. exact (ex_intro _ only_python3 only_python3_fails). Qed.
Print Assumptions C155_absent_refuted.

(* make.cmd is made for the python that was chosen, and all arguments are handed on. *)
Theorem C155_kept : forall m p args, chosen m = Some p -> entry (p :: args) = (p, args).
Proof. exact kept_right. Qed.
Print Assumptions C155_kept.

(* The python given with --python is run, but with arguments that configure.py refuses: shift does not change %*. *)
Theorem C155_given : forall m x r, x <> "" -> exists q, run_cmd configure_cmd m ("--python" :: x :: r) = Some q /\
  configuring q = [x :: "configure.py" :: "--python" :: x :: r] /\ takes (snd (entry ("--python" :: x :: r))) = false.
Proof. exact given_right. Qed.
Print Assumptions C155_given.

Theorem C155_given_refuted : exists m x r q, modern m x = true /\ run_cmd configure_cmd m ("--python" :: x :: r) = Some q /\
  forall w, In w (configuring q) -> exists argv, w = x :: "configure.py" :: argv /\ takes (snd (entry argv)) = false.
Proof. exact given_fails. Qed.
Print Assumptions C155_given_refuted.

Theorem C155_help : forall m x r, In x ["--help"; "-h"] -> run_cmd configure_cmd m (x :: r) = Some [].
Proof. exact help_right. Qed.
Print Assumptions C155_help.

Theorem C155_harmless : forall m args, exists r, run_cmd configure_cmd m args = Some r /\ harmless r.
Proof. exact harmless_right. Qed.
Print Assumptions C155_harmless.

Example C155_case :
  there old_and_new "python" /\ there old_and_new "python3" /\ chosen old_and_new = Some "python3" /\ version only_python3 "python" = None /\
  run_cmd configure_cmd old_and_new ["--unicode-version"; "12"; "-v"] =
    Some [["cmake.exe"; "--version"]; ["python"; "choosep3.py"]; ["python3"; "choosep3.py"];
          ["python3"; "configure.py"; "python3"; "--unicode-version"; "12"; "-v"]] /\
  takes (snd (entry ["python3"; "--unicode-version"; "12"; "-v"])) = true /\
  takes (snd (entry ["py"; "--pre"; "x"; "--compiler=cl"])) = true /\
  run_cmd configure_cmd only_python3 ["--python"; "py"; "-v"] = Some [["cmake.exe"; "--version"]; ["py"; "configure.py"; "--python"; "py"; "-v"]].
Proof. split; [discriminate|]. split; [discriminate|]. vm_compute. repeat split. Qed.
