(* C130-C135: the Windows installer and uninstaller of NSIS/ansak-string.nsi *)
From Coq Require Import ZArith List Bool String Ascii.
From Verif Require Import Model.Make Model.Nsis Spec.Install Spec.Nsis.
From Verif.Proof Require Import InstallCase Nsis NsisDone NsisCase.
Import ListNotations.
Open Scope string_scope.
Open Scope list_scope.

(* ---- C130: everything make.py package gathers arrives where it belongs ---- *)
Theorem C130_installer : forall root d0 pkg inst exe d d', pack root d0 = Some pkg ->
  install_section pkg inst exe d = (Returned tt, d') ->
  forall s data, (s = cmake_file \/ exists g x, holds g /\ s = g ++ [x]) ->
    look d0 (root ++ s) = Some (File data) -> look d' (inst ++ s) = Some (File data).
Proof. exact installer_done. Qed.
Print Assumptions C130_installer.

(* from the build to the other machine; in between make.py may add FindANSAK.cmake and the like *)
Theorem C130_packaged : forall here d0 d1 d2 pkg inst exe d d' t s, gather here d0 = (Returned tt, d1) ->
  (forall p, ours (here ++ ["build"; "nsis"]) p -> look d2 p = look d1 p) ->
  pack (here ++ ["build"; "nsis"]) d2 = Some pkg ->
  install_section pkg inst exe d = (Returned tt, d') -> belongs t s ->
  exists data, look d' (inst ++ s) = Some (File data) /\
    (look d0 (here ++ t) = Some (File data) \/
     exists a, In a architectures /\ t = built a "RelWithDebInfo" database /\
       is_file d0 (here ++ t) = false /\
       look d0 (here ++ ["build"; a; "ansakString.dir"; "RelWithDebInfo"; database]) = Some (File data)).
Proof. exact packaged. Qed.
Print Assumptions C130_packaged.

Example C130_case : run (gather src) (disk_of []) = Returned tt /\
  (forall p, ours nsis_root p -> look gathered_disk p = look (after (gather src) (disk_of [])) p) /\
  pack nsis_root gathered_disk = Some the_package /\
  run (install_section the_package data_dir [85%Z]) machine2 = Returned tt /\
  look machine2 (data_dir ++ ["lib"; "Win32"; "MinSizeRel"; "ansakString.lib"]) = None /\
  look after_setup (data_dir ++ ["lib"; "Win32"; "MinSizeRel"; "ansakString.lib"]) =
    look (disk_of []) (src ++ built "Win32" "MinSizeRel" library) /\
  look after_setup (data_dir ++ ["lib"; "Win32"; "MinSizeRel"; "ansakString.lib"]) <> None.
Proof.
  split; [exact gather_runs|]. split; [exact gathered_same|]. split; [exact the_package_packed|]. split; [exact setup_runs|].
  vm_compute. repeat split. discriminate.
Qed.

(* ---- C131: neither touches anything else, whatever comes of it ---- *)
Theorem C131_installer : forall root d0 pkg inst exe d r d', pack root d0 = Some pkg ->
  install_section pkg inst exe d = (r, d') ->
  untouched_but (by_installer (fun s => exists data, look d0 (root ++ s) = Some (File data)) inst) d d' /\
  (forall p, look d p = Some Dir -> look d' p = Some Dir) /\ (forall p, look d p <> None -> look d' p <> None).
Proof. exact installer_keeps. Qed.
Print Assumptions C131_installer.

Theorem C131_uninstaller : forall inst d, let d' := uninstall_section inst d in
  writable d' = writable d /\
  (forall p, look d' p = look d p \/ (look d' p = None /\ by_uninstaller inst p)) /\
  (forall p, look d p = Some Dir -> p <> inst ++ ["include"; "ansak"] -> look d' p = Some Dir).
Proof. exact uninstaller_keeps. Qed.
Print Assumptions C131_uninstaller.

Example C131_case :
  look after_setup (data_dir ++ ["other.txt"]) = Some (File [1%Z]) /\
  look (uninstall_section data_dir after_setup) (data_dir ++ ["other.txt"]) = Some (File [1%Z]) /\
  look after_setup (data_dir ++ remover) = Some (File [85%Z]) /\
  look (uninstall_section data_dir after_setup) (data_dir ++ remover) = None /\
  run (install_section the_package data_dir [85%Z]) (put machine2 (data_dir ++ ["lib"]) (File [])) <> Returned tt /\
  look (after (install_section the_package data_dir [85%Z]) (put machine2 (data_dir ++ ["lib"]) (File []))) (data_dir ++ ["lib"]) =
    Some (File []).
Proof. vm_compute. repeat split. discriminate. Qed.

(* ---- C132: un.isEmptyDir answers "1" for an empty directory and "0" for anything else, on every machine; it
   takes its argument off the stack, restores both registers and closes its search ---- *)
Theorem C132_is_empty_dir : forall d p st m, stack m = Place p :: st ->
  (forall e, In e (searches m) -> fst e < counter m) ->
  exists m' t, call d m = Some m' /\ stack m' = Text t :: st /\ (t = "1" \/ t = "0") /\ (t = "1" <-> vacant d p) /\
    r0 m' = r0 m /\ r1 m' = r1 m /\ errors m' = false /\ searches m' = searches m.
Proof. exact empty_dir. Qed.
Print Assumptions C132_is_empty_dir.

Example C132_case :
  let m p := {| r0 := Text "a"; r1 := Text "b"; stack := [Place p; Text "c"]; errors := true;
                searches := [(0, ["x"])]; counter := 1 |} in
  let answer p := match call machine2 (m p) with Some m' => stack m' | None => [] end in
  (forall e, In e (searches (m data_dir)) -> fst e < counter (m data_dir)) /\
  answer data_dir = [Text "0"; Text "c"] /\ answer (data_dir ++ ["none"]) = [Text "0"; Text "c"] /\
  match call (put machine2 (data_dir ++ ["d"]) Dir) (m (data_dir ++ ["d"])) with Some m' => stack m' | None => [] end =
    [Text "1"; Text "c"].
Proof. cbv zeta. split; [cbn; intros e [<-|[]]; auto|]. vm_compute. repeat split. Qed.

(* ---- C133: the uninstaller leaves nothing of ours ----
   Full statement: it removes all files of the installation and the directories made for them, if they are empty.
   Missing: of the directories only include\ansak is removed (C133_directories, for every disk), and
   FindANSAK.cmake stays if include\ansak is not a directory or holds something else (C133_cmake_stays). *)
Theorem C133_files : forall inst d s data, (our_file s \/ s = remover) ->
  look d (inst ++ s) = Some (File data) -> writable d (inst ++ s) = true ->
  look (uninstall_section inst d) (inst ++ s) = None.
Proof. exact uninstaller_done. Qed.
Print Assumptions C133_files.

Theorem C133_cmake_partial : forall inst d data, look d (inst ++ ["include"; "ansak"]) = Some Dir ->
  (forall x, look d (inst ++ ["include"; "ansak"; x]) <> None ->
     In x headers /\ (exists data, look d (inst ++ ["include"; "ansak"; x]) = Some (File data)) /\
     writable d (inst ++ ["include"; "ansak"; x]) = true) ->
  writable d (inst ++ ["include"; "ansak"]) = true ->
  look d (inst ++ cmake_file) = Some (File data) -> writable d (inst ++ cmake_file) = true ->
  look (uninstall_section inst d) (inst ++ ["include"; "ansak"]) = None /\
  look (uninstall_section inst d) (inst ++ cmake_file) = None.
Proof. exact cmake_gone_then. Qed.
Print Assumptions C133_cmake_partial.

Theorem C133_cmake_stays : forall inst d, look d (inst ++ ["include"; "ansak"]) <> Some Dir \/
    (exists x, ~ In x headers /\ look d (inst ++ ["include"; "ansak"; x]) <> None) ->
  look (uninstall_section inst d) (inst ++ cmake_file) = look d (inst ++ cmake_file).
Proof. exact cmake_stays_if. Qed.
Print Assumptions C133_cmake_stays.

Theorem C133_directories : forall inst d s, look d (inst ++ s) = Some Dir -> s <> ["include"; "ansak"] ->
  look (uninstall_section inst d) (inst ++ s) = Some Dir.
Proof. exact directories_stay. Qed.
Print Assumptions C133_directories.

Theorem C133_cmake_refuted : exists inst d data, look d (inst ++ cmake_file) = Some (File data) /\
  writable d (inst ++ cmake_file) = true /\ look (uninstall_section inst d) (inst ++ cmake_file) = Some (File data).
Proof. exact cmake_left. Qed.
Print Assumptions C133_cmake_refuted.

Example C133_case :
  forallb (fun s => match look after_setup (data_dir ++ s) with Some (File _) => true | _ => false end)
    (cmake_file :: remover :: deletions) = true /\
  forallb (fun s => match look (uninstall_section data_dir after_setup) (data_dir ++ s) with None => true | _ => false end)
    (["include"; "ansak"] :: cmake_file :: remover :: deletions) = true /\
  look (uninstall_section data_dir after_setup) (data_dir ++ ["include"]) = Some Dir /\
  look (uninstall_section data_dir after_setup) (data_dir ++ ["lib"; "x64"; "Debug"]) = Some Dir.
Proof. vm_compute. repeat split. Qed.

(* ---- C134: installing and removing leaves the disk as it was ----
   Full statement: for every disk without our files and every package.
   Missing: directories remain (C134_directories_refuted), and files in the directory of the package that
   make.py did not put there are installed and not removed (C134_stale_refuted). *)
Theorem C134_round_trip_partial : forall root d0 pkg inst exe d d1, sound d -> pack root d0 = Some pkg ->
  (forall g x data, holds g -> look d0 (root ++ g ++ [x]) = Some (File data) -> our_file (g ++ [x])) ->
  install_section pkg inst exe d = (Returned tt, d1) ->
  (forall s, our_file s \/ s = ["include"; "ansak"] \/ s = cmake_file \/ s = remover ->
     look d (inst ++ s) = None /\ writable d (inst ++ s) = true) ->
  let d2 := uninstall_section inst d1 in
  forall p, look d2 p = look d p \/
    (look d p = None /\ look d2 p = Some Dir /\
     ((exists g, holds g /\ on_the_way p (inst ++ g)) \/ on_the_way p inst)).
Proof. exact round_trip. Qed.
Print Assumptions C134_round_trip_partial.

Theorem C134_directories_refuted : exists root d0 pkg inst exe d d1 p, sound d /\ pack root d0 = Some pkg /\
  install_section pkg inst exe d = (Returned tt, d1) /\ (forall p, writable d p = true) /\
  look d p = None /\ look (uninstall_section inst d1) p = Some Dir.
Proof. exact directories_left. Qed.
Print Assumptions C134_directories_refuted.

Theorem C134_stale_refuted : exists root d0 pkg inst exe d d1 p data, sound d /\ pack root d0 = Some pkg /\
  install_section pkg inst exe d = (Returned tt, d1) /\ (forall p, writable d p = true) /\
  look d p = None /\ look (uninstall_section inst d1) p = Some (File data).
Proof. exact stale_left. Qed.
Print Assumptions C134_stale_refuted.

Example C134_case : sound machine2 /\ pack nsis_root gathered_disk = Some the_package /\
  run (install_section the_package data_dir [85%Z]) machine2 = Returned tt /\
  (forall g x data, holds g -> look gathered_disk (nsis_root ++ g ++ [x]) = Some (File data) -> our_file (g ++ [x])) /\
  (forall s, our_file s \/ s = ["include"; "ansak"] \/ s = cmake_file \/ s = remover ->
     look machine2 (data_dir ++ s) = None /\ writable machine2 (data_dir ++ s) = true).
Proof. exact setup_case. Qed.

(* ---- C135: make.py install and the installer install the same ----
   Full statement: for all files.
   Missing: the library of Win32/MinSizeRel, for which make.py install takes that of x64 (C135_minsizerel_refuted). *)
Theorem C135_same_partial : forall here prefix d d1 g1 g2 pkg inst exe e e' t s,
  install prefix here d = (Returned tt, d1) ->
  gather here d = (Returned tt, g1) ->
  (forall p, ours (here ++ ["build"; "nsis"]) p -> look g2 p = look g1 p) ->
  pack (here ++ ["build"; "nsis"]) g2 = Some pkg ->
  install_section pkg inst exe e = (Returned tt, e') ->
  belongs t s -> s <> installed "Win32" "MinSizeRel" library ->
  look e' (inst ++ s) = look d1 (prefix ++ s) /\ look e' (inst ++ s) <> None.
Proof. exact same_files. Qed.
Print Assumptions C135_same_partial.

Theorem C135_minsizerel_refuted : exists here prefix d d1 g1 g2 pkg inst exe e e' t s,
  install prefix here d = (Returned tt, d1) /\
  gather here d = (Returned tt, g1) /\
  (forall p, ours (here ++ ["build"; "nsis"]) p -> look g2 p = look g1 p) /\
  pack (here ++ ["build"; "nsis"]) g2 = Some pkg /\
  install_section pkg inst exe e = (Returned tt, e') /\
  belongs t s /\ look e' (inst ++ s) <> look d1 (prefix ++ s).
Proof. exact not_same. Qed.
Print Assumptions C135_minsizerel_refuted.

Example C135_case : run (install data_dir src) (disk_of []) = Returned tt /\ run (gather src) (disk_of []) = Returned tt /\
  pack nsis_root gathered_disk = Some the_package /\
  run (install_section the_package data_dir [85%Z]) machine2 = Returned tt /\
  belongs (built "x64" "Debug" library) (installed "x64" "Debug" library) /\
  look after_setup (data_dir ++ installed "x64" "Debug" library) =
    look (after (install data_dir src) (disk_of [])) (data_dir ++ installed "x64" "Debug" library).
Proof.
  split; [exact plain_installs|]. split; [exact gather_runs|]. split; [exact the_package_packed|].
  split; [exact setup_runs|]. split; [constructor; cbn; tauto|]. vm_compute. reflexivity.
Qed.
