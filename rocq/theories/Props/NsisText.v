(* C142: the text of NSIS/ansak-string.nsi, read and run as it stands *)
From Coq Require Import ZArith List Bool String Ascii.
From Verif Require Import Gen.TextScripts Model.Make Model.Nsis Model.NsisText Spec.Install Spec.Nsis.
From Verif.Proof Require Import InstallCase Nsis NsisDone NsisCase NsisText.
Import ListNotations.
Open Scope string_scope.
Open Scope list_scope.

(* ---- C142: for every disk the text does what Model/Nsis.v says, and so C130-C135 hold of it; a removal the user
   declines changes nothing ---- *)
Theorem C142_installer : forall root d0 inst exe,
  match install_by ansak_string_nsi root d0 inst exe, pack root d0 with
  | Some m, Some pkg => forall d, m d = install_section pkg inst exe d
  | None, None => True
  | _, _ => False
  end.
Proof. exact install_same. Qed.
Print Assumptions C142_installer.

Theorem C142_uninstaller : forall inst d,
  uninstall_by ansak_string_nsi true inst d = Some (uninstall_section inst d).
Proof. exact uninstall_same. Qed.
Print Assumptions C142_uninstaller.

Theorem C142_installs : forall root d0 inst exe m d d', install_by ansak_string_nsi root d0 inst exe = Some m ->
  m d = (Returned tt, d') ->
  forall s data, (s = cmake_file \/ exists g x, holds g /\ s = g ++ [x]) ->
    look d0 (root ++ s) = Some (File data) -> look d' (inst ++ s) = Some (File data).
Proof. exact text_installs. Qed.
Print Assumptions C142_installs.

Theorem C142_removes : forall yes inst d, exists d', uninstall_by ansak_string_nsi yes inst d = Some d' /\
  (yes = false -> d' = d) /\
  (forall p, look d' p = look d p \/ (look d' p = None /\ by_uninstaller inst p)) /\
  (yes = true -> forall s data, (our_file s \/ s = remover) ->
     look d (inst ++ s) = Some (File data) -> writable d (inst ++ s) = true -> look d' (inst ++ s) = None).
Proof. exact text_removes. Qed.
Print Assumptions C142_removes.

(* on the disks of C130_case: installed, kept on No, removed on Yes *)
Example C142_case :
  let x := data_dir ++ ["lib"; "Win32"; "Debug"; "ansakString.pdb"] in
  match install_by ansak_string_nsi nsis_root gathered_disk data_dir [85%Z] with
  | Some m => run m machine2 = Returned tt /\ look machine2 x = None /\
              look (after m machine2) x = look (disk_of []) (src ++ built "Win32" "Debug" database)
  | None => False
  end /\
  look after_setup x <> None /\
  match uninstall_by ansak_string_nsi false data_dir after_setup, uninstall_by ansak_string_nsi true data_dir after_setup with
  | Some no, Some yes => look no x = look after_setup x /\ look yes x = None /\
                         look yes (data_dir ++ ["other.txt"]) = Some (File [1%Z])
  | _, _ => False
  end.
Proof. vm_compute. repeat split. discriminate. Qed.

(* the words of a line, a continued line, and a text that cannot be read *)
Example C142_words :
  words Between "  Delete ""$INSTDIR\a b\c.lib""  # comment" = Some ["Delete"; "$INSTDIR\a b\c.lib"] /\
  join_lines "" ["a \"; "b"; "c"] = ["a b"; "c"] /\
  command_of ["strcmp"; "$1"; ".."; "0"; "_notempty"] = Some (Small (StrCmp R1 ".." "_notempty")) /\
  read_script ["Section ""x"""; "  Nonsense"; "SectionEnd"] = None /\ read_script ["Section ""x"""] = None /\
  option_map (fun s => List.length (blocks s)) (read_script ansak_string_nsi) = Some 4.
Proof. vm_compute. repeat split. Qed.
