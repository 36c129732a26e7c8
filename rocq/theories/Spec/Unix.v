(** What the recipes of /repo/Makefile are for, said by tables and without their
    code. *)
From Coq Require Import List String.
From Verif Require Import Model.Make Spec.Install.
Import ListNotations.
Open Scope string_scope.
Open Scope list_scope.

Definition archive : string := "libansakString.a".

(** Where the headers and the library belong below the prefix. *)
Definition archive_file : path := ["lib"; archive].
Definition header_file (h : string) : path := ["include"; "ansak"; h].
Definition header_dir : path := ["include"; "ansak"].

(** [p] is [q] or a directory [q] lies in. *)
Definition leads_to (p q : path) : Prop := exists s, q = p ++ s.

(** What an installation may change: the way to its directories, the headers it
    finds in interface, the library. *)
Definition installation (prefix here : path) (d : disk) (p : path) : Prop :=
  leads_to p (prefix ++ header_dir) \/ leads_to p (prefix ++ ["lib"]) \/
  p = prefix ++ archive_file \/
  exists h, look d (here ++ ["interface"; h]) <> None /\ p = prefix ++ header_file h.

(** What a removal has to change: the files, and the directory of the headers. *)
Definition removal (prefix : path) (p : path) : Prop :=
  p = prefix ++ archive_file \/ (exists h, In h headers /\ p = prefix ++ header_file h) \/
  p = prefix ++ header_dir.
