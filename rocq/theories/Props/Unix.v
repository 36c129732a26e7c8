(* C122-C126: make install, make uninstall, make clean and make scrub *)
From Coq Require Import ZArith List Bool String Ascii.
From Verif.Model Require Stamps.
From Verif.Model Require Import Make Unix.
From Verif.Spec Require Import Install Unix.
From Verif.Proof Require Import InstallCase UnixDone UnixUndo UnixRest UnixCase.
Import ListNotations.
Open Scope string_scope.
Open Scope list_scope.

(* ---- C122: make install, when it ends well, has put the library and every header where they belong ---- *)
Theorem C122_installed : forall sudo prefix here config d d',
  make_install sudo prefix here config d = (Returned tt, d') ->
  (exists data, look d ((here ++ product_dir config) ++ [archive]) = Some (File data) /\
                look d' (prefix ++ archive_file) = Some (File data)) /\
  (forall h data, look d (here ++ ["interface"; h]) = Some (File data) ->
     hidden h = false -> Stamps.ends "hxx" h = true -> look d' (prefix ++ header_file h) = Some (File data)).
Proof. exact install_done_unix. Qed.
Print Assumptions C122_installed.

Example C122_case : run to_usr with_usr = Returned tt /\
  look with_usr ["usr"; "lib"; "libansakString.a"] = None /\
  look (after to_usr with_usr) ["usr"; "lib"; "libansakString.a"] = Some (File [65%Z]) /\
  look (after to_usr with_usr) ["usr"; "include"; "ansak"; "string_trim.hxx"] = Some (File [72%Z]) /\
  exists e, run (make_install false ["usr"] sources false) with_usr = Raised e.
Proof. split; [exact usr_installs|]. split; [reflexivity|]. split; [vm_compute; reflexivity|].
  split; [vm_compute; reflexivity|]. exact usr_refused. Qed.

(* ---- C123: installing and removing change nothing else ---- *)
Theorem C123_install_keeps : forall sudo prefix here config d r d',
  make_install sudo prefix here config d = (r, d') ->
  untouched_but (installation prefix here d) d d' /\
  forall p, look d p = Some Dir -> look d' p = Some Dir.
Proof. exact install_keeps_unix. Qed.
Print Assumptions C123_install_keeps.

(* Full statement: make uninstall changes nothing but the files and the directory of the headers, or, below the
   prefix, include and lib.
   Missing: without sudo it removes include and lib of the home directory, whatever the prefix
   (C123_home_refuted). *)
Theorem C123_uninstall_keeps_partial : forall sudo prefix home d r d',
  make_uninstall sudo prefix home d = (r, d') ->
  writable d' = writable d /\
  forall p, look d' p = look d p \/
    (look d' p = None /\ (removal prefix p \/ (sudo = false /\ spare_homes home p))).
Proof. exact uninstall_keeps_unix. Qed.
Print Assumptions C123_uninstall_keeps_partial.

Theorem C123_home_refuted : exists sudo prefix home d d', sound d /\ prefix <> home /\
  make_uninstall sudo prefix home d = (Returned tt, d') /\
  look d (home ++ ["lib"]) = Some Dir /\ look d' (home ++ ["lib"]) = None.
Proof. exact home_lib_lost. Qed.
Print Assumptions C123_home_refuted.

Example C123_case : run to_local with_local = Returned tt /\
  look with_local (local ++ ["lib"]) = None /\ look (after to_local with_local) (local ++ ["lib"]) = Some Dir /\
  look (after from_usr (after to_usr with_usr)) ["usr"; "lib"; "libansakString.a"] = None /\
  look (after from_usr (after to_usr with_usr)) (sources ++ ["Makefile"]) = Some (File [77%Z]).
Proof. vm_compute. repeat split. Qed.

(* ---- C124: make uninstall removes what make install put there ----
   Full statement: after make uninstall none of the files of the library are left below the prefix.
   Missing: the case that it fails, and it fails when one of the three headers is not there, before it comes to
   the library (C124_stuck, C124_library_refuted). *)
Theorem C124_removed_partial : forall sudo prefix home d d',
  make_uninstall sudo prefix home d = (Returned tt, d') ->
  look d' (prefix ++ archive_file) = None /\
  (forall h, In h headers -> look d' (prefix ++ header_file h) = None) /\
  look d' (prefix ++ header_dir) <> Some Dir.
Proof. exact uninstall_done_unix. Qed.
Print Assumptions C124_removed_partial.

Theorem C124_stuck : forall sudo prefix home d r d' h,
  make_uninstall sudo prefix home d = (r, d') ->
  In h headers -> (forall data, look d (prefix ++ header_file h) <> Some (File data)) ->
  (exists e, r = Raised e) /\
  forall p, look d' p = look d p \/ exists h, In h headers /\ p = prefix ++ header_file h.
Proof. exact uninstall_stuck. Qed.
Print Assumptions C124_stuck.

Theorem C124_library_refuted : exists sudo prefix home d r d', sound d /\
  make_uninstall sudo prefix home d = (r, d') /\
  look d (prefix ++ archive_file) <> None /\ look d' (prefix ++ archive_file) = look d (prefix ++ archive_file).
Proof. exact library_stays. Qed.
Print Assumptions C124_library_refuted.

Example C124_case : run from_usr (after to_usr with_usr) = Returned tt /\
  look (after to_usr with_usr) ["usr"; "lib"; "libansakString.a"] = Some (File [65%Z]) /\
  (forall data, look with_usr (["usr"] ++ header_file "string.hxx") <> Some (File data)) /\
  exists e, run from_usr with_usr = Raised e.
Proof. split; [exact usr_uninstalls|]. split; [vm_compute; reflexivity|]. split; [vm_compute; discriminate|].
  eexists. vm_compute. reflexivity. Qed.

(* ---- C125: make uninstall after make install leaves the disk as it was ----
   Full statement: where nothing of the library was before, every path is after both as it was.
   Missing: with sudo, include and lib stay though the installation made them (C125_sudo_leaves,
   C125_remains_refuted), and so do the directories above them. *)
Theorem C125_undone_partial : forall sudo prefix here home config d d1 r d2, sound d ->
  make_install sudo prefix here config d = (Returned tt, d1) ->
  (forall h, In h headers -> exists data, look d (here ++ ["interface"; h]) = Some (File data)) ->
  (forall h, look d (here ++ ["interface"; h]) <> None -> hidden h = false -> Stamps.ends "hxx" h = true -> In h headers) ->
  look d (prefix ++ header_dir) = None -> look d (prefix ++ archive_file) = None ->
  make_uninstall sudo prefix home d1 = (r, d2) ->
  forall p, ~ leads_to p (prefix ++ ["include"]) -> ~ leads_to p (prefix ++ ["lib"]) ->
    (sudo = false -> p <> home ++ ["include"] /\ p <> home ++ ["lib"]) -> look d2 p = look d p.
Proof. exact undone_unix. Qed.
Print Assumptions C125_undone_partial.

(* at home, and there the whole of it *)
Theorem C125_home_partial : forall sudo prefix here home config d d1, prefix = home -> sudo = false -> sound d ->
  make_install sudo prefix here config d = (Returned tt, d1) ->
  (forall h, In h headers -> exists data, look d (here ++ ["interface"; h]) = Some (File data)) ->
  (forall h, look d (here ++ ["interface"; h]) <> None -> hidden h = false -> Stamps.ends "hxx" h = true -> In h headers) ->
  look d home = Some Dir -> look d (home ++ ["include"]) = None -> look d (home ++ ["lib"]) = None ->
  exists d2, make_uninstall sudo prefix home d1 = (Returned tt, d2) /\ forall p, look d2 p = look d p.
Proof. exact undone_home. Qed.
Print Assumptions C125_home_partial.

Theorem C125_sudo_leaves : forall sudo prefix here home config d d1 r d2, sudo = true ->
  make_install sudo prefix here config d = (Returned tt, d1) ->
  make_uninstall sudo prefix home d1 = (r, d2) ->
  look d2 (prefix ++ ["include"]) = Some Dir /\ look d2 (prefix ++ ["lib"]) = Some Dir.
Proof. exact sudo_leaves. Qed.
Print Assumptions C125_sudo_leaves.

Theorem C125_remains_refuted : exists sudo prefix here home config d d1 d2 p, sound d /\
  make_install sudo prefix here config d = (Returned tt, d1) /\
  make_uninstall sudo prefix home d1 = (Returned tt, d2) /\ look d p = None /\ look d2 p = Some Dir.
Proof. exact usr_remains. Qed.
Print Assumptions C125_remains_refuted.

Example C125_case : sound with_home /\ run to_home with_home = Returned tt /\
  (forall h, In h headers -> exists data, look with_home (sources ++ ["interface"; h]) = Some (File data)) /\
  (forall h, look with_home (sources ++ ["interface"; h]) <> None -> In h headers) /\
  look with_home me = Some Dir /\ look with_home (me ++ ["include"]) = None /\
  look with_home (me ++ ["lib"]) = None /\ run from_home (after to_home with_home) = Returned tt /\
  look (after to_home with_home) (me ++ ["lib"]) = Some Dir /\
  look (after from_home (after to_home with_home)) (me ++ ["lib"]) = None.
Proof. exact home_case. Qed.

(* ---- C126: make clean empties build and changes nothing else; make scrub removes build and config.make ----
   Full statement: whatever is on the disk, make clean leaves nothing in build and changes nothing outside.
   Missing: hidden files stay (C126_hidden_refuted); without a directory build everything in the directory of
   the sources that is not hidden is removed, as after make scrub (C126_everything, C126_sources_refuted). *)
Theorem C126_clean_partial : forall here d r d', sound d -> look d (here ++ ["build"]) = Some Dir ->
  make_clean here d = (r, d') ->
  untouched_but (fun p => exists x s, hidden x = false /\ p = here ++ "build" :: x :: s) d d' /\
  (r = Returned tt -> forall x s, hidden x = false -> look d' (here ++ "build" :: x :: s) = None).
Proof. exact clean_build. Qed.
Print Assumptions C126_clean_partial.

Theorem C126_scrub : forall here d d', sound d -> make_scrub here d = (Returned tt, d') ->
  (forall s, look d' (here ++ "build" :: s) = None) /\ look d' (here ++ ["config.make"]) = None /\
  untouched_but (fun p => p = here ++ ["config.make"] \/ exists s, p = here ++ "build" :: s) d d' /\ sound d'.
Proof. exact scrub_done. Qed.
Print Assumptions C126_scrub.

Theorem C126_everything : forall here d d', sound d -> look d (here ++ ["build"]) <> Some Dir ->
  make_clean here d = (Returned tt, d') ->
  forall x s, hidden x = false -> look d' (here ++ x :: s) = None.
Proof. exact clean_everything. Qed.
Print Assumptions C126_everything.

Theorem C126_sources_refuted : exists here d d1 d2, sound d /\
  make_scrub here d = (Returned tt, d1) /\ make_clean here d1 = (Returned tt, d2) /\
  look d (here ++ ["interface"; "string.hxx"]) <> None /\ look d2 (here ++ ["interface"; "string.hxx"]) = None.
Proof. exact sources_lost. Qed.
Print Assumptions C126_sources_refuted.

Theorem C126_hidden_refuted : exists here d d', sound d /\ look d (here ++ ["build"]) = Some Dir /\
  make_clean here d = (Returned tt, d') /\ exists x, look d' (here ++ ["build"; x]) <> None.
Proof. exact hidden_stays. Qed.
Print Assumptions C126_hidden_refuted.

Example C126_case : sound with_home /\ look with_home (sources ++ ["build"]) = Some Dir /\
  run (make_clean sources) with_home = Returned tt /\
  look (after (make_clean sources) with_home) (sources ++ ["build"]) = Some Dir /\
  look (after (make_clean sources) with_home) (sources ++ ["build"; "libansakString.a"]) = None /\
  run (make_scrub sources) with_home = Returned tt /\
  look (after (make_scrub sources) with_home) (sources ++ ["Makefile"]) = Some (File [77%Z]) /\
  look (after (make_scrub sources) with_home) (sources ++ ["config.make"]) = None.
Proof. split; [exact home_sound|]. vm_compute. repeat split. Qed.
