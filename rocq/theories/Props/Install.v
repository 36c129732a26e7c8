(* C107-C116: the scripts that build, install, remove and package the library on Windows *)
From Coq Require Import ZArith List Bool String Ascii.
From Verif.Model Require Import Make.
From Verif.Spec Require Import Install.
From Verif.Proof Require Import InstallFacts InstallDone InstallUndo InstallGather InstallRest InstallCase.
Import ListNotations.
Open Scope string_scope.
Open Scope list_scope.

(* ---- C107: targets ----
   Full statement: help is done alone; otherwise every target is done as often as it was given and in that
   order, except that clean is done once and first; without targets, all is done; a target that is not known
   is refused before anything is done.
   Missing: an unknown target is only refused when its turn comes (C107_late_refuted). *)
Theorem C107_help_partial : forall l, In "help" l -> valid_order l = ["help"].
Proof. exact valid_order_help. Qed.
Print Assumptions C107_help_partial.

Theorem C107_counts_partial : forall l, ~ In "help" l -> l <> [] ->
  (forall t, t <> "clean" -> count_occ string_dec (valid_order l) t = count_occ string_dec l t) /\
  (In "clean" l -> count_occ string_dec (valid_order l) "clean" = 1 /\ hd_error (valid_order l) = Some "clean") /\
  (~ In "clean" l -> valid_order l = l).
Proof. exact order_counts. Qed.
Print Assumptions C107_counts_partial.

Theorem C107_order_partial : forall l a b x y z, ~ In "help" l -> a <> "clean" -> b <> "clean" ->
  l = x ++ a :: y ++ b :: z -> exists x' y' z', valid_order l = x' ++ a :: y' ++ b :: z'.
Proof. exact order_kept. Qed.
Print Assumptions C107_order_partial.

Theorem C107_late_refuted : exists (act : string -> io unit) l d d',
  In "instal" l /\ ~ In "instal" targets /\
  process act l d = (Raised Failed, d') /\ look d' ["done"] <> look d ["done"].
Proof. exact late_refusal. Qed.
Print Assumptions C107_late_refuted.

Example C107_case : valid_order ["test"; "clean"; "install"; "clean"; "test"] = ["clean"; "test"; "install"; "test"] /\
  valid_order [] = ["all"] /\ valid_order ["clean"] = ["clean"] /\ valid_order ["install"; "help"] = ["help"].
Proof. repeat split. Qed.

(* ---- C108: install ----
   Full statement: after an installation every header, library and program database is where it belongs, as it
   was built.
   Missing: lib\Win32\MinSizeRel gets the library that was built for x64 (make.py 340). *)
Theorem C108_installed_partial : forall prefix here d d' t s, install prefix here d = (Returned tt, d') ->
  belongs t s -> s <> installed "Win32" "MinSizeRel" library ->
  exists data, look d (here ++ t) = Some (File data) /\ look d' (prefix ++ s) = Some (File data).
Proof. exact installed_right. Qed.
Print Assumptions C108_installed_partial.

Theorem C108_directories_partial : forall prefix here d d' s, install prefix here d = (Returned tt, d') ->
  our_directory s -> look d' (prefix ++ s) = Some Dir.
Proof. exact installed_directories. Qed.
Print Assumptions C108_directories_partial.

Theorem C108_minsizerel_partial : forall prefix here d d', install prefix here d = (Returned tt, d') ->
  exists data, look d (here ++ built "x64" "MinSizeRel" library) = Some (File data) /\
               look d' (prefix ++ installed "Win32" "MinSizeRel" library) = Some (File data).
Proof. exact installed_wrong. Qed.
Print Assumptions C108_minsizerel_partial.

Theorem C108_refuted : exists prefix here d d' t s,
  sound d /\ install prefix here d = (Returned tt, d') /\ belongs t s /\
  look d' (prefix ++ s) <> look d (here ++ t).
Proof. exact wrong_library. Qed.
Print Assumptions C108_refuted.

Example C108_case : let d' := after (install data_dir src) (disk_of []) in
  run (install data_dir src) (disk_of []) = Returned tt /\
  look d' (data_dir ++ installed "x64" "Debug" database) = Some (File [80; 64; 2]%Z) /\
  look d' (data_dir ++ installed "Win32" "MinSizeRel" library) = Some (File [76; 64; 4]%Z).
Proof. vm_compute. repeat split. Qed.

(* ---- C109: install and uninstall keep to their own, whether they succeed or not, and leave a disk on which
   everything lies in a directory ---- *)
Theorem C109_install : forall prefix here d r d', install prefix here d = (r, d') ->
  untouched_but (ours prefix) d d' /\ (sound d -> sound d').
Proof. exact install_keeps. Qed.
Print Assumptions C109_install.

Theorem C109_uninstall : forall prefix d r d', uninstall prefix d = (r, d') ->
  untouched_but (ours prefix) d d' /\ (forall p, look d' p = look d p \/ look d' p = None) /\ (sound d -> sound d').
Proof. exact uninstall_keeps. Qed.
Print Assumptions C109_uninstall.

Example C109_case : ours data_dir (data_dir ++ ["include"; "ansak"]) /\
  ~ ours data_dir (data_dir ++ ["include"; "ansak"; "mine.hxx"]) /\ sound (disk_of []).
Proof. exact ours_case. Qed.

(* ---- C110: install succeeds if nothing stands in its way ---- *)
Theorem C110_succeeds : forall prefix here d,
  look d prefix = Some Dir ->
  (forall s, our_directory s -> look d (prefix ++ s) = Some Dir \/
     (look d (prefix ++ s) = None /\ writable d (prefix ++ s) = true)) ->
  (forall s, our_file s -> look d (prefix ++ s) <> Some Dir /\ writable d (prefix ++ s) = true) ->
  (forall t s, belongs t s -> exists data, look d (here ++ t) = Some (File data)) ->
  exists d', install prefix here d = (Returned tt, d').
Proof. exact install_succeeds. Qed.
Print Assumptions C110_succeeds.

(* and only then, but for the one library it does not use *)
Theorem C110_only : forall prefix here d d', install prefix here d = (Returned tt, d') ->
  (forall s, our_directory s -> look d (prefix ++ s) = Some Dir \/
     (look d (prefix ++ s) = None /\ writable d (prefix ++ s) = true)) /\
  (forall s, our_file s -> look d (prefix ++ s) <> Some Dir /\ writable d (prefix ++ s) = true) /\
  (forall t s, belongs t s -> s <> installed "Win32" "MinSizeRel" library ->
     exists data, look d (here ++ t) = Some (File data)).
Proof. exact install_needs. Qed.
Print Assumptions C110_only.

Example C110_case : look (disk_of []) data_dir = Some Dir /\ look with_header data_dir = Some Dir /\
  run (install data_dir src) (disk_of []) = Returned tt /\ run (install data_dir src) with_header = Returned tt /\
  run (install data_dir ["C:"]) (disk_of []) = Raised NotFound.
Proof. vm_compute. repeat split. Qed.

(* ---- C111: uninstall ---- *)
Theorem C111_uninstalled : forall prefix d d', sound d -> uninstall prefix d = (Returned tt, d') ->
  (forall s data, our_file s -> look d' (prefix ++ s) <> Some (File data)) /\
  (forall s, our_directory s -> look d' (prefix ++ s) = Some Dir -> occupied d' (prefix ++ s)).
Proof. exact uninstall_done. Qed.
Print Assumptions C111_uninstalled.

Example C111_case : sound with_header /\ run (uninstall data_dir) with_header = Returned tt /\
  look (after (uninstall data_dir) with_header) (data_dir ++ ["include"; "ansak"]) = None /\
  look (after (uninstall data_dir) with_header) (data_dir ++ ["include"]) = Some Dir.
Proof. exact uninstall_case. Qed.

(* ---- C112: uninstall undoes install ----
   Full statement: if none of the files was there before, then after install and uninstall the disk is as before.
   Missing: a directory that was there and empty is removed (C112_refuted). *)
Theorem C112_undone_partial : forall prefix here d d1,
  sound d ->
  (forall s, our_file s -> look d (prefix ++ s) = None) ->
  (forall s, our_directory s -> look d (prefix ++ s) <> Some Dir \/ occupied d (prefix ++ s)) ->
  install prefix here d = (Returned tt, d1) ->
  exists d2, uninstall prefix d1 = (Returned tt, d2) /\
             writable d2 = writable d /\ forall p, look d2 p = look d p.
Proof. exact install_uninstall. Qed.
Print Assumptions C112_undone_partial.

Theorem C112_refuted : exists prefix here d d1 d2 p,
  sound d /\ (forall s, our_file s -> look d (prefix ++ s) = None) /\
  install prefix here d = (Returned tt, d1) /\ uninstall prefix d1 = (Returned tt, d2) /\
  look d p = Some Dir /\ look d2 p = None.
Proof. exact not_all_back. Qed.
Print Assumptions C112_refuted.

Example C112_case : sound (disk_of []) /\
  (forall s, our_file s -> look (disk_of []) (data_dir ++ s) = None) /\
  (forall s, our_directory s -> look (disk_of []) (data_dir ++ s) <> Some Dir \/ occupied (disk_of []) (data_dir ++ s)) /\
  run (install data_dir src) (disk_of []) = Returned tt.
Proof. exact undone_case. Qed.

(* ---- C113: clean ----
   Full statement: clean deletes the build directories of both architectures, the gathered package, the
   installer and the two marks, with all that is below them, and nothing else.
   Missing: without makensis it fails before it has deleted anything (make.py 497). *)
Theorem C113_clean_partial : forall here package d d', sound d ->
  clean here true package d = (Returned tt, d') ->
  writable d' = writable d /\
  forall p, look d' p =
    if existsb (fun v => below v p)
         (map (fun s => here ++ s)
            [["build"; "Win32"]; ["build"; "x64"]; ["build"; "nsis"]; ["build"; package];
             ["build"; "all.touch"]; ["build"; "test.touch"]])
    then None else look d p.
Proof. exact clean_done. Qed.
Print Assumptions C113_clean_partial.

Theorem C113_below_partial : forall p q, below p q = true <-> exists s, q = p ++ s.
Proof. exact below_true. Qed.
Print Assumptions C113_below_partial.

Theorem C113_no_nsis_partial : forall here package d, clean here false package d = (Raised NoKey, d).
Proof. exact clean_without_nsis. Qed.
Print Assumptions C113_no_nsis_partial.

Theorem C113_refuted : exists here package d d' r, sound d /\ clean here false package d = (r, d') /\
  look d' (here ++ ["build"; "x64"]) = Some Dir /\ run (clean here true package) d = Returned tt.
Proof. exact clean_fails. Qed.
Print Assumptions C113_refuted.

Example C113_case : run (clean src true "p") (disk_of []) = Returned tt /\
  look (after (clean src true "p") (disk_of [])) (src ++ built "x64" "Debug" library) = None /\
  look (after (clean src true "p") (disk_of [])) (src ++ ["build"]) = Some Dir /\
  look (disk_of []) (src ++ built "x64" "Debug" library) <> None.
Proof. vm_compute. repeat split; discriminate. Qed.

(* ---- C114: what goes into a package is what belongs there ---- *)
Theorem C114_gathered : forall here d d' t s, gather here d = (Returned tt, d') -> belongs t s ->
  exists data, look d' (here ++ ["build"; "nsis"] ++ s) = Some (File data) /\
    (look d (here ++ t) = Some (File data) \/
     exists a, In a architectures /\ t = built a "RelWithDebInfo" database /\
       is_file d (here ++ t) = false /\
       look d (here ++ ["build"; a; "ansakString.dir"; "RelWithDebInfo"; database]) = Some (File data)).
Proof. exact gathered_right. Qed.
Print Assumptions C114_gathered.

Theorem C114_untouched : forall here d d', gather here d = (Returned tt, d') ->
  untouched_but (fun p => p = here ++ ["build"; "nsis"] \/ ours (here ++ ["build"; "nsis"]) p) d d'.
Proof. exact gather_untouched. Qed.
Print Assumptions C114_untouched.

Example C114_case : run (gather src) (disk_of []) = Returned tt /\
  look (after (gather src) (disk_of [])) (src ++ ["build"; "nsis"] ++ installed "Win32" "MinSizeRel" library)
    = Some (File [76; 32; 4]%Z).
Proof. vm_compute. repeat split. Qed.

(* ---- C115: the installer is named after the Unicode version it holds ----
   Full statement: for every version asked for, the number in the name of the installer is the one the library
   was compiled for.
   Missing: exactly the versions that are not 7..16 (the name says what was asked for, the library is for 16). *)
Theorem C115_exactly_partial : forall n v, bits_dir (decimal n) = ("source/bits" ++ decimal v)%string ->
  (package_name n = package_name v <-> (7 <= n <= 16)%Z).
Proof. exact version_agrees. Qed.
Print Assumptions C115_exactly_partial.

Theorem C115_built_partial : forall n,
  bits_dir (decimal n) = ("source/bits" ++ decimal (if (7 <=? n)%Z && (n <=? 16)%Z then n else 16))%string.
Proof. exact built_version. Qed.
Print Assumptions C115_built_partial.

Theorem C115_refuted : exists n, package_name n = "ansak-string-u6-setup.exe" /\
  bits_dir (decimal n) = "source/bits16".
Proof. exact version_six. Qed.
Print Assumptions C115_refuted.

Example C115_case : package_name 12 = "ansak-string-u12-setup.exe" /\ bits_dir (decimal 12) = "source/bits12" /\
  decimal (-7) = "-7".
Proof. repeat split. Qed.

(* ---- C116: the compiler asked for ----
   Full statement: cmake is told the compiler that was given to configure with --compiler.
   Missing: it never is.  Without CXX in the environment it is told the name in quotes, with it the one there;
   only without --compiler does it get what it should. *)
Theorem C116_default_partial : forall i, cxx None i = i.
Proof. exact cxx_none. Qed.
Print Assumptions C116_default_partial.

Theorem C116_quoted_partial : forall s, s <> "" -> cxx (Some s) None = Some (repr s) /\ repr s <> s.
Proof. exact cxx_given. Qed.
Print Assumptions C116_quoted_partial.

Theorem C116_overridden_partial : forall g i, cxx g (Some i) = Some i.
Proof. exact cxx_inherited. Qed.
Print Assumptions C116_overridden_partial.

Theorem C116_refuted : exists s i, s <> "" /\ cxx (Some s) i <> Some s.
Proof. exact cxx_wrong. Qed.
Print Assumptions C116_refuted.

Example C116_case : cxx (Some "clang++") None = Some "'clang++'" /\ cxx (Some "clang++") (Some "cl") = Some "cl" /\
  repr "it's" = String (ascii_of_nat 34) ("it's" ++ String (ascii_of_nat 34) "").
Proof. repeat split. Qed.
