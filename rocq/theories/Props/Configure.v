(* C127-C129: configure, its options, sudo, and config.make *)
From Coq Require Import ZArith List Bool String Ascii.
From Verif.Model Require Import Configure.
From Verif.Spec Require Import Configure.
From Verif.Proof Require Import Configure.
Import ListNotations.
Open Scope string_scope.
Open Scope list_scope.

(* ---- C127: of each option the last one given counts, and the documented default if none is ----
   Full statement: for every list of options and every environment.
   Missing: a variable prefix, compiler or unicodeVersion of the environment takes the place of the default
   (C127_environment_refuted), and on Linux the default prefix is /usr and not the /usr/local of the README
   (C127_linux_refuted). *)
Theorem C127_defaults_partial : forall w is, has_cmake w = true -> Forall proper is ->
  env_prefix w = "" -> env_compiler w = "" -> env_version w = "" ->
  settle w (flat_map spelt is) =
  Go {| prefix := given the_prefix is (def_prefix w);
        compiler := given the_compiler is (def_cxx w);
        unicode_version := given the_version is "16" |}.
Proof. exact settled_clean. Qed.
Print Assumptions C127_defaults_partial.

(* nothing else is accepted *)
Theorem C127_accepted : forall w args v, settle w args = Go v ->
  has_cmake w = true /\ exists is, Forall proper is /\ args = flat_map spelt is.
Proof. exact settled_only. Qed.
Print Assumptions C127_accepted.

(* help is given where it is asked for *)
Theorem C127_help : forall is rest v h, Forall proper is -> h = "-h" \/ h = "--help" ->
  options (flat_map spelt is ++ h :: rest) v = Usage 0.
Proof. exact options_help. Qed.
Print Assumptions C127_help.

(* the prefix is the documented one but on Linux *)
Theorem C127_documented_partial : forall w is v, system_of w <> Other -> env_prefix w = "" -> Forall proper is ->
  settle w (flat_map spelt is) = Go v -> prefix v = given the_prefix is (documented_prefix w).
Proof. exact documented_elsewhere. Qed.
Print Assumptions C127_documented_partial.

Theorem C127_environment_refuted : exists w v, has_cmake w = true /\ settle w [] = Go v /\
  prefix v <> def_prefix w /\ unicode_version v <> "16".
Proof. exact inherited. Qed.
Print Assumptions C127_environment_refuted.

Theorem C127_linux_refuted : exists w v, system_of w = Other /\ env_prefix w = "" /\ settle w [] = Go v /\
  prefix v <> documented_prefix w.
Proof. exact undocumented. Qed.
Print Assumptions C127_linux_refuted.

Example C127_case :
  settle mac ["--prefix"; "/a"; "-v"; "--unicode-version"; "15"; "--prefix"; "/b"] =
  Go {| prefix := "/b"; compiler := "clang++"; unicode_version := "15" |} /\
  Forall proper [Prefix "/a"; Verbose false; Version "15"; Prefix "/b"] /\
  settle mac ["--prefix"] = Usage 1 /\ settle mac ["--prefix"; ""] = Usage 1 /\
  settle mac ["-v"; "-h"; "-x"] = Usage 0 /\ settle mac ["-x"; "-h"] = Usage 1 /\
  settle mac [] = Go {| prefix := "/Users/me"; compiler := "clang++"; unicode_version := "16" |}.
Proof. repeat split. repeat constructor; discriminate. Qed.

(* ---- C128: sudo is used where the prefix needs privileges, and only there ----
   Full statement, by the comment of the script: sudo is used if and only if the system is not that of MinGW or
   Cygwin and the prefix lies in /usr or /Applications.
   Missing: it is used for every absolute prefix but the home directory itself and what begins with /0
   (C128_exact, C128_home_refuted), and not for a home directory in /usr (C128_usr_refuted). *)
Theorem C128_privileged_partial : forall w p, no_blank p -> privileged w p -> p <> env_home w ->
  wants_sudo w p = true.
Proof. exact privileged_sudo. Qed.
Print Assumptions C128_privileged_partial.

Theorem C128_exact : forall w p, no_blank p ->
  (wants_sudo w p = true <->
   system_of w <> Windows /\ (p = "" \/ exists r, p = String "/" r) /\ cut2 p <> "0" /\
   ((system_of w = Darwin /\ cut2 p = "Applications") \/ env_second w = "usr" \/ p <> env_home w)).
Proof. exact wants_sudo_exact. Qed.
Print Assumptions C128_exact.

Theorem C128_home_refuted : exists w p, no_blank p /\ ~ privileged w p /\ wants_sudo w p = true /\
  exists s, p = append (env_home w) (append "/" s).
Proof. exact sudo_at_home. Qed.
Print Assumptions C128_home_refuted.

Theorem C128_usr_refuted : exists w p, no_blank p /\ privileged w p /\ wants_sudo w p = false.
Proof. exact no_sudo_for_root. Qed.
Print Assumptions C128_usr_refuted.

Example C128_case : privileged linux "/usr/local" /\ wants_sudo linux "/usr/local" = true /\
  privileged mac "/Applications" /\ wants_sudo mac "/Applications" = true /\
  wants_sudo mac "/Users/me" = false /\ wants_sudo linux "local" = false /\
  wants_sudo linux "/opt" = true /\ ~ privileged linux "/opt".
Proof.
  split; [split; [discriminate|left; right; now exists "local"]|]. split; [reflexivity|].
  split; [split; [discriminate|right; now left]|]. repeat (split; [reflexivity|]).
  intros (_ & [[H|(s & H)]|[H|(s & H)]]); discriminate.
Qed.

(* ---- C129: make reads from config.make what configure settled ----
   Full statement: for all values.
   Missing: blanks beyond one between two words are lost, and everything from a # on (C129_blanks_refuted,
   C129_hash_refuted). *)
Theorem C129_read_partial : forall w v, neat (prefix v) -> neat (compiler v) -> neat (unicode_version v) ->
  let read k := value_of k (config_make w v) in
  read "PREFIX" = prefix v /\ read "CXX" = compiler v /\ read "UNICODE_VERSION" = unicode_version v.
Proof. exact neat_read. Qed.
Print Assumptions C129_read_partial.

Theorem C129_exact : forall w v,
  let read k := value_of k (config_make w v) in
  let shown s := upto "#" (echo (fields s)) in
  read "SUDO" = (if wants_sudo w (prefix v) then "sudo" else "") /\
  read "PREFIX" = shown (prefix v) /\ read "CXX" = shown (compiler v) /\
  read "UNICODE_VERSION" = shown (unicode_version v) /\
  read "CONFIG" = config_of w /\ read "GENERATOR" = generator_of w /\
  read "BUILDS_DEB" = builds w (has_dpkg w) /\ read "BUILDS_RPM" = builds w (has_rpm w) /\
  read "BUILDS_ARCH" = builds w (has_debtap w).
Proof. exact make_reads. Qed.
Print Assumptions C129_exact.

Theorem C129_blanks_refuted : exists w v, settle w ["--prefix"; "/opt/my  tools"] = Go v /\
  prefix v = "/opt/my  tools" /\ value_of "PREFIX" (config_make w v) = "/opt/my tools".
Proof. exact blanks_lost. Qed.
Print Assumptions C129_blanks_refuted.

Theorem C129_hash_refuted : exists w v, settle w ["--prefix"; "/opt/c#"] = Go v /\
  prefix v = "/opt/c#" /\ value_of "PREFIX" (config_make w v) = "/opt/c".
Proof. exact hash_lost. Qed.
Print Assumptions C129_hash_refuted.

Example C129_case :
  neat "ccache g++" /\
  let v := {| prefix := "/usr/local"; compiler := "ccache g++"; unicode_version := "16" |} in
  value_of "CXX" (config_make linux v) = "ccache g++" /\
  config_make linux v = ["SUDO = sudo"; "PREFIX = /usr/local"; "CXX = ccache g++"; "CONFIG =";
    "GENERATOR = Unix Makefiles"; "UNICODE_VERSION = 16"; "BUILDS_DEB = 1"; "BUILDS_RPM = 0"; "BUILDS_ARCH = 0"].
Proof.
  split; [|split; reflexivity].
  exists ["ccache"; "g++"]. split; [|reflexivity].
  apply Forall_cons; [split; [discriminate|exact (word_checked "ccache" eq_refl)]|].
  apply Forall_cons; [split; [discriminate|exact (word_checked "g++" eq_refl)]|]. apply Forall_nil.
Qed.
