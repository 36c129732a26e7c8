(* C151: CMakeLists.txt and packaging.cmake agree with the scripts around them *)
From Coq Require Import ZArith List Bool String Ascii.
From Verif Require Import Gen.TextLists Model.Make Model.Lists Model.ListsWanted Spec.Lists Spec.Install Spec.Unix.
From Verif.Proof Require Import ListsAgree ListsWorlds.
Import ListNotations.
Open Scope string_scope.
Open Scope list_scope.

(* ---- C151: given the number make.py hands over, the text builds the Unicode version Model/Make.v says (so C115 holds of it);
   packages hold the headers that make install, make.py install and the installer install, in the same place ---- *)
Theorem C151_version : forall w n, clean w -> fails w = false -> setting w "ANSAK_UNICODE_SUPPORT" = decimal n ->
  exists t, run_lists CMakeLists_txt packaging_cmake w = Went t /\
    (forall v, In v versions -> (compiles t (lower_file v) <-> ("source/bits" ++ v)%string = bits_dir (decimal n))) /\
    (forall v, In v versions -> (compiles t (lower_file v) <-> v = decimal (if (7 <=? n)%Z && (n <=? 16)%Z then n else 16))).
Proof. exact version_from_make. Qed.
Print Assumptions C151_version.

Theorem C151_headers : forall w, clean w -> fails w = false -> root w = true ->
  exists t, run_lists CMakeLists_txt packaging_cmake w = Went t /\
    (forall h, In h headers <-> Lists.installed t ("interface/" ++ h)%string) /\
    (forall f, Lists.installed t f -> exists h, f = ("interface/" ++ h)%string /\ belongs ["interface"; h] (header_file h)).
Proof. exact same_headers. Qed.
Print Assumptions C151_headers.

Example C151_case : clean debian /\ fails debian = false /\ root debian = true /\ setting debian "ANSAK_UNICODE_SUPPORT" = decimal 12 /\
  bits_dir (decimal 12) = "source/bits12" /\ clean fedora /\ fails fedora = false /\ setting fedora "ANSAK_UNICODE_SUPPORT" = decimal 6 /\
  bits_dir (decimal 6) = "source/bits16" /\ header_file "string_trim.hxx" = ["include"; "ansak"; "string_trim.hxx"].
Proof.
  split; [exact debian_clean|]. do 4 (split; [vm_compute; reflexivity|]). split; [exact fedora_clean|]. repeat split; vm_compute; reflexivity.
Qed.
