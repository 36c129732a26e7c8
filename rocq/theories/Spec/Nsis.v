(** What the installer and the uninstaller are for, without their code. *)
From Coq Require Import ZArith List String.
From Verif Require Import Model.Make Spec.Install.
Import ListNotations.
Open Scope string_scope.
Open Scope list_scope.

Definition cmake_file : path := ["FindANSAK.cmake"].
Definition remover : path := ["uninstall-ansak-string.exe"].

(** A directory that holds our files. *)
Inductive holds : path -> Prop :=
  | holds_headers : holds ["include"; "ansak"]
  | holds_build : forall a c, In a architectures -> In c configurations -> holds ["lib"; a; c].

(** [p] is [q] or a directory [q] lies in. *)
Definition on_the_way (p q : path) : Prop := exists s, q = p ++ s.

(** An empty directory. *)
Definition vacant (d : disk) (p : path) : Prop := look d p = Some Dir /\ ~ occupied d p.

(** What an installation may change: the ways to its directories, what is packed
    there, the file for cmake and the uninstaller. *)
Definition by_installer (packed : path -> Prop) (inst p : path) : Prop :=
  (exists s, holds s /\ on_the_way p (inst ++ s)) \/ on_the_way p inst \/
  (exists s x, holds s /\ packed (s ++ [x]) /\ p = inst ++ s ++ [x]) \/
  p = inst ++ cmake_file \/ p = inst ++ remover.

(** What a removal may change. *)
Definition by_uninstaller (inst p : path) : Prop :=
  exists s, p = inst ++ s /\ (our_file s \/ s = ["include"; "ansak"] \/ s = cmake_file \/ s = remover).
