(** Settings the cases of C144-C150 are about. *)
From Coq Require Import ZArith List Bool String Ascii Lia.
From Verif Require Import Gen.TextLists Model.Make Model.Cmake Model.Lists Model.ListsWanted Spec.Lists.
From Verif Require Import Proof.ListsRun Proof.ListsAll Proof.ListsCase.
Import ListNotations.
Open Scope string_scope.
Open Scope list_scope.

Definition look (l : list (string * string)) (n : string) : option string :=
  option_map snd (find (fun p => String.eqb (fst p) n) l).

Definition make_world (l : list (string * string)) (v : option string) (r : nat * nat) (d : string) : world :=
  {| outer := look l; stored := fun n => if String.eqb n "ANSAK_UNICODE_SUPPORT" then v else None; release := r; distro := d; defined := fun _ => false |}.

Definition linux_settings (dir kind : string) : list (string * string) :=
  [("CMAKE_SOURCE_DIR", "/s"); ("CMAKE_CURRENT_SOURCE_DIR", dir); ("UNIX", "1"); ("CMAKE_GENERATOR", "Unix Makefiles"); ("CMAKE_SYSTEM_NAME", "Linux");
   ("CMAKE_CURRENT_BINARY_DIR", "/b"); ("CMAKE_BINARY_DIR", "/b"); ("CMAKE_CXX_COMPILER_ID", "GNU"); ("CMAKE_CXX_COMPILER_VERSION", "12.2.0");
   ("CMAKE_BUILD_TYPE", kind)].

Definition windows_settings (g : string) : list (string * string) :=
  [("CMAKE_SOURCE_DIR", "C:/s"); ("CMAKE_CURRENT_SOURCE_DIR", "C:/s"); ("WIN32", "1"); ("CMAKE_GENERATOR", g); ("CMAKE_SYSTEM_NAME", "Windows");
   ("CMAKE_CURRENT_BINARY_DIR", "C:/b"); ("CMAKE_BINARY_DIR", "C:/b"); ("CMAKE_CXX_COMPILER_ID", "MSVC"); ("CMAKE_COMMAND", "C:/cmake.exe");
   ("CMAKE_CFG_INTDIR", "$(Configuration)")].

Definition debian : world := make_world (linux_settings "/s" "Release") (Some "12") (3, 25) "Debian".
Definition fedora : world := make_world (linux_settings "/s" "Release") (Some "6") (3, 25) "Fedora".
Definition old_cmake : world := make_world (linux_settings "/s" "Release") (Some "12") (3, 13) "Debian".
Definition no_lsb : world := make_world (linux_settings "/s" "Release") (Some "12") (3, 25) "".
Definition rhel : world := make_world (linux_settings "/s" "Release") (Some "12") (3, 25) "RedHatEnterprise".
Definition covering : world := make_world (linux_settings "/s" "Coverage") None (3, 25) "Debian".
Definition covering_part : world := make_world (linux_settings "/s/string" "Coverage") None (3, 25) "Debian".
Definition studio_2008 : world := make_world (windows_settings "Visual Studio 9 2008") None (3, 25) "".
Definition studio_2013 : world := make_world (windows_settings "Visual Studio 12 2013 Win64") None (3, 25) "".
Definition studio_2022 : world := make_world (windows_settings "Visual Studio 17 2022") None (3, 25) "".

Ltac each_name := let x := fresh in let I := fresh in intros x I; cbn in I; repeat (destruct I as [<-|I]; [vm_compute; reflexivity|]); destruct I.
Ltac is_clean := constructor;
  [each_name | each_name | repeat split; vm_compute; reflexivity | repeat split; vm_compute; reflexivity
  |intros _; repeat split; vm_compute; reflexivity].
Ltac is_clean_windows := constructor;
  [each_name | each_name | repeat split; vm_compute; reflexivity | repeat split; vm_compute; reflexivity
  |let X := fresh in intro X; exfalso; revert X; vm_compute; discriminate].

Lemma debian_clean : clean debian. Proof. is_clean. Qed.
Lemma fedora_clean : clean fedora. Proof. is_clean. Qed.
Lemma old_clean : clean old_cmake. Proof. is_clean. Qed.
Lemma rhel_clean : clean rhel. Proof. is_clean. Qed.
Lemma covering_clean : clean covering. Proof. is_clean. Qed.
Lemma covering_part_clean : clean covering_part. Proof. is_clean. Qed.
Lemma studio_2008_clean : clean studio_2008. Proof. is_clean_windows. Qed.
Lemma studio_2013_clean : clean studio_2013. Proof. is_clean_windows. Qed.
Lemma studio_2022_clean : clean studio_2022. Proof. is_clean_windows. Qed.

(** Visual Studio 2008 sorts after 2015. *)
Lemma tests_2008 : exists w t, clean w /\ of_year (generator w) 2008 /\ run_it w = Went t /\ tests t.
Proof.
  destruct (went studio_2008 studio_2008_clean ltac:(vm_compute; reflexivity)) as (t & R & A & _).
  exists studio_2008, t. split; [exact studio_2008_clean|]. split; [exists "Visual Studio 9 2008", ""; split; [cbn; tauto|reflexivity]|].
  split; [exact R|]. apply (tests_tested _ _ A). vm_compute. reflexivity.
Qed.

(** As a part of another project the target for coverage cannot be set up. *)
Lemma part_not_covered : exists w, clean w /\ release w = (3, 25) /\ visual w = false /\ coverage w = true /\ root w = false /\ run_it w = Fatal.
Proof.
  exists covering_part. split; [exact covering_part_clean|]. do 4 (split; [vm_compute; reflexivity|]).
  apply covered_part; [exact covering_part_clean|vm_compute; reflexivity..].
Qed.

(** cmake 3.10 to 3.13, which the first line accepts *)
Lemma old_fails : exists w, clean w /\ release w = (3, 13) /\ before_release (release w) (3, 10) = false /\ root w = true /\ coverage w = false /\ run_it w = Fatal.
Proof.
  exists old_cmake. split; [exact old_clean|]. do 4 (split; [vm_compute; reflexivity|]).
  apply too_old; [exact old_clean|vm_compute; reflexivity..].
Qed.

(** Linux without lsb_release *)
Lemma no_lsb_fails : exists w, linux w = true /\ distro w = "" /\ release w = (3, 25) /\ root w = true /\ coverage w = false /\ run_it w = Fatal.
Proof.
  exists no_lsb. do 5 (split; [vm_compute; reflexivity|]). unfold run_lists. rewrite lists_read, packaging_read. vm_compute. reflexivity.
Qed.

(** Red Hat's lsb_release writes RedHatEnterprise. *)
Lemma rhel_debs : exists w t, clean w /\ distro w = "RedHatEnterprise" /\ run_it w = Went t /\ value w t "CPACK_GENERATOR" = Some "TGZ;DEB".
Proof.
  destruct (packaged_as rhel rhel_clean ltac:(vm_compute; reflexivity) ltac:(vm_compute; reflexivity)) as (t & R & P & _).
  exists rhel, t. split; [exact rhel_clean|]. split; [reflexivity|]. split; [exact R|]. rewrite P. vm_compute. reflexivity.
Qed.

(** A run written out *)
Lemma debian_run : exists t, run_it debian = Went t /\
  asked t =
  [("include", words ["CTest"]); ("add_subdirectory", words ["submods"]);
   ("add_compile_options", words ["-Wall"; "-Wextra"; "-Werror"]); ("add_compile_options", words ["-Wno-missing-field-initializers"]);
   ("add_library", words ["ansakString"; "STATIC"; "source/string.cxx"; "source/string_tolower.cxx"; "source/string_toutf8.cxx"; "source/string_decode_utf8.cxx";
      "source/encoding_check_predicate.cxx"; "source/string_internal.hxx"; "source/bits12/char_to_lower.cxx"; "source/bits12/char_is_unicode.cxx"]);
   ("target_compile_options", words ["ansakString"; "PRIVATE"; "-Weffc++"; "-fno-operator-names"]);
   ("target_include_directories", words ["ansakString"; "PRIVATE"; "source/bits12"; "source"; "PUBLIC"; "interface"])] ++
  tests_asked debian ++ packages_asked debian.
Proof.
  destruct (went debian debian_clean ltac:(vm_compute; reflexivity)) as (t & R & A & _). exists t. split; [exact R|]. rewrite A. vm_compute. reflexivity.
Qed.

Lemma among : forall x l, existsb (String.eqb x) l = true -> In x l.
Proof. intros x l E. apply existsb_exists in E as (y & I & E). apply String.eqb_eq in E as ->. exact I. Qed.

Lemma not_among : forall x l, existsb (String.eqb x) l = false -> ~ In x l.
Proof.
  intros x l E I. assert (T : existsb (String.eqb x) l = true) by (apply existsb_exists; exists x; split; [exact I|apply String.eqb_refl]).
  rewrite T in E. discriminate.
Qed.
