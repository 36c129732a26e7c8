(** [install], [uninstall] and the gathering of [package] as lists of steps,
    and what those lists do. *)
From Coq Require Import ZArith List Bool String Ascii Lia.
From Verif Require Import Model.Make Spec.Install Proof.InstallFacts.
Import ListNotations.
Open Scope string_scope.
Open Scope list_scope.

(** * The tables as lists *)

Definition all_files : list path :=
  map (fun h => ["include"; "ansak"; h]) headers ++
  flat_map (fun a => map (fun c => installed a c library) configurations) architectures ++
  flat_map (fun a => map (fun c => installed a c database) debugged) architectures.

Definition all_dirs : list path :=
  [["include"]; ["include"; "ansak"]; ["lib"]] ++
  map (fun a => ["lib"; a]) architectures ++
  flat_map (fun a => map (fun c => ["lib"; a; c]) configurations) architectures.

Ltac in_list :=
  repeat match goal with
  | H : In _ (_ :: _) |- _ => destruct H as [H|H]
  | H : In _ [] |- _ => destruct H
  end; subst.

Lemma our_file_in : forall s, our_file s <-> In s all_files.
Proof.
  intro s. split.
  - intros (t & B). destruct B; unfold architectures, configurations, headers, debugged in *;
      in_list; cbv; tauto.
  - intro H. cbv in H. repeat (destruct H as [<-|H]); try (destruct H; fail).
    all: first [ eexists; apply (belongs_header); cbv; tauto
               | eexists; apply (belongs_library); cbv; tauto
               | eexists; apply (belongs_database); cbv; tauto ].
Qed.

Lemma our_directory_in : forall s, our_directory s <-> In s all_dirs.
Proof.
  intro s. split.
  - intros B. destruct B; unfold architectures, configurations in *; in_list; cbv; tauto.
  - intro H. cbv in H. repeat (destruct H as [<-|H]); try (destruct H; fail).
    all: first [ apply dir_include | apply dir_ansak | apply dir_lib
               | apply dir_architecture; cbv; tauto
               | apply dir_configuration; cbv; tauto ].
Qed.

Lemma belongs_source : forall t s, belongs t s ->
  t = match s with
      | ["include"; "ansak"; h] => ["interface"; h]
      | ["lib"; a; c; f] => ["build"; a; c; f]
      | _ => []
      end.
Proof.
  intros t s B. destruct B; unfold architectures, configurations, headers, debugged in *; in_list; reflexivity.
Qed.

(** * Installation *)

Definition dirs_in_order : list path :=
  [["include"]; ["include"; "ansak"]; ["lib"]; ["lib"; "Win32"]; ["lib"; "x64"];
   ["lib"; "Win32"; "Release"]; ["lib"; "Win32"; "Debug"];
   ["lib"; "Win32"; "RelWithDebInfo"]; ["lib"; "Win32"; "MinSizeRel"];
   ["lib"; "x64"; "Release"]; ["lib"; "x64"; "Debug"];
   ["lib"; "x64"; "RelWithDebInfo"]; ["lib"; "x64"; "MinSizeRel"]].

Definition install_copies : list (path * path) :=
  [(["interface"; "string.hxx"], ["include"; "ansak"]);
   (["interface"; "string_splitjoin.hxx"], ["include"; "ansak"]);
   (["interface"; "string_trim.hxx"], ["include"; "ansak"]);
   (built "Win32" "Release" library, ["lib"; "Win32"; "Release"]);
   (built "Win32" "Debug" library, ["lib"; "Win32"; "Debug"]);
   (built "Win32" "Debug" database, ["lib"; "Win32"; "Debug"]);
   (built "Win32" "RelWithDebInfo" library, ["lib"; "Win32"; "RelWithDebInfo"]);
   (built "Win32" "RelWithDebInfo" database, ["lib"; "Win32"; "RelWithDebInfo"]);
   (built "Win32" "Release" library, ["lib"; "Win32"; "Release"]);
   (built "x64" "MinSizeRel" library, ["lib"; "Win32"; "MinSizeRel"]);
   (built "x64" "Release" library, ["lib"; "x64"; "Release"]);
   (built "x64" "Debug" library, ["lib"; "x64"; "Debug"]);
   (built "x64" "Debug" database, ["lib"; "x64"; "Debug"]);
   (built "x64" "RelWithDebInfo" library, ["lib"; "x64"; "RelWithDebInfo"]);
   (built "x64" "RelWithDebInfo" database, ["lib"; "x64"; "RelWithDebInfo"]);
   (built "x64" "MinSizeRel" library, ["lib"; "x64"; "MinSizeRel"])].

Lemma install_dests_dirs : forall prefix,
  map snd (install_dests prefix) = map (fun s => prefix ++ s) dirs_in_order.
Proof. intro prefix. cbn. now rewrite <- !app_assoc. Qed.

Ltac one_by_one :=
  repeat match goal with
  | |- context [match copy2 ?a ?b ?d with (_, _) => _ end] =>
      destruct (copy2 a b d) as [[[]|?] ?]
  | |- context [match rm_f ?b ?d with (_, _) => _ end] =>
      destruct (rm_f b d) as [[[]|?] ?]
  | |- context [match rmdir_if_empty ?b ?d with (_, _) => _ end] =>
      destruct (rmdir_if_empty b d) as [[[]|?] ?]
  end.

Lemma install_steps : forall prefix here d,
  install prefix here d =
  match create_dirs (map (fun s => prefix ++ s) dirs_in_order) d with
  | (Returned z, d1) =>
      if Z.eqb z 0 then or_exit (each (copy_one prefix here) install_copies) d1
      else (Raised (Exit z), d1)
  | (Raised e, d1) => (Raised e, d1)
  end.
Proof.
  intros prefix here d. unfold install. cbv zeta. rewrite install_dests_dirs.
  unfold andthen at 1. destruct (create_dirs _ d) as [[z|e] d1]; [|reflexivity].
  destruct (Z.eqb z 0) eqn:E; [|reflexivity].
  unfold andthen at 1, ret at 1. unfold or_exit.
  match goal with |- match ?a with _ => _ end = match ?b with _ => _ end => assert (K : a = b); [|now rewrite K] end.
  cbn -[copy2 app]. unfold copy_to, copy_one, andthen, key_of, ret. cbn -[copy2 app].
  rewrite <- !app_assoc. cbn [app].
  unfold built, installed, library, database.
  one_by_one; reflexivity.
Qed.

(** * Removal *)

Inductive removal := Rm (s : path) | Rmdir (s : path).

Definition removed (r : removal) : path := match r with Rm s | Rmdir s => s end.

Definition remove_one (prefix : path) (r : removal) : io unit :=
  match r with
  | Rm s => rm_f (prefix ++ s)
  | Rmdir s => rmdir_if_empty (prefix ++ s)
  end.

Definition removals : list removal :=
  map Rm [["include"; "ansak"; "string.hxx"]; ["include"; "ansak"; "string_splitjoin.hxx"];
          ["include"; "ansak"; "string_trim.hxx"]] ++
  [Rmdir ["include"; "ansak"]; Rmdir ["include"]] ++
  map Rm [installed "Win32" "Release" library; installed "Win32" "Debug" library;
          installed "Win32" "Debug" database; installed "Win32" "RelWithDebInfo" library;
          installed "Win32" "RelWithDebInfo" database; installed "Win32" "MinSizeRel" library;
          installed "x64" "Release" library; installed "x64" "Debug" library;
          installed "x64" "Debug" database; installed "x64" "RelWithDebInfo" library;
          installed "x64" "RelWithDebInfo" database; installed "x64" "MinSizeRel" library] ++
  map Rmdir [["lib"; "Win32"; "Release"]; ["lib"; "Win32"; "Debug"];
             ["lib"; "Win32"; "RelWithDebInfo"]; ["lib"; "Win32"; "MinSizeRel"]; ["lib"; "Win32"];
             ["lib"; "x64"; "Release"]; ["lib"; "x64"; "Debug"];
             ["lib"; "x64"; "RelWithDebInfo"]; ["lib"; "x64"; "MinSizeRel"]; ["lib"; "x64"]; ["lib"]].

Lemma uninstall_steps : forall prefix d,
  uninstall prefix d = or_exit (each (remove_one prefix) removals) d.
Proof.
  intros prefix d. unfold uninstall, or_exit, removals. cbv zeta.
  match goal with |- match ?a with _ => _ end = match ?b with _ => _ end => assert (K : a = b); [|now rewrite K] end.
  cbn [map app each headers_to_install libs_to_install remove_one].
  unfold rm_in, rmdir_of, andthen, key_of, ret. cbn -[rm_f rmdir_if_empty app].
  rewrite <- !app_assoc. cbn [app].
  unfold built, installed, library, database.
  one_by_one; reflexivity.
Qed.
