(** What the scripts for Windows are for, said by tables and without their
    code: which file belongs where, and which directories that takes.  The
    layout is the one /repo/NSIS/ansak-string.nsi 40-48 and /repo/README.md
    describe. *)
From Coq Require Import List String.
From Verif Require Import Model.Make.
Import ListNotations.
Open Scope string_scope.
Open Scope list_scope.

Definition headers : list string :=
  ["string.hxx"; "string_splitjoin.hxx"; "string_trim.hxx"].

Definition architectures : list string := ["Win32"; "x64"].

Definition configurations : list string :=
  ["Release"; "Debug"; "RelWithDebInfo"; "MinSizeRel"].

Definition library : string := "ansakString.lib".
Definition database : string := "ansakString.pdb".

(** The kinds of build that come with a program database. *)
Definition debugged : list string := ["Debug"; "RelWithDebInfo"].

(** The built file [f] of architecture [a] and configuration [c]: where the
    build leaves it below the directory of the sources, and where it belongs
    below the directory of the installation. *)
Definition built (a c f : string) : path := ["build"; a; c; f].
Definition installed (a c f : string) : path := ["lib"; a; c; f].

Inductive belongs : path -> path -> Prop :=
  | belongs_header : forall h, In h headers ->
      belongs ["interface"; h] ["include"; "ansak"; h]
  | belongs_library : forall a c, In a architectures -> In c configurations ->
      belongs (built a c library) (installed a c library)
  | belongs_database : forall a c, In a architectures -> In c debugged ->
      belongs (built a c database) (installed a c database).

(** A path that holds an installed file, and a directory for them. *)
Definition our_file (s : path) : Prop := exists t, belongs t s.

Inductive our_directory : path -> Prop :=
  | dir_include : our_directory ["include"]
  | dir_ansak : our_directory ["include"; "ansak"]
  | dir_lib : our_directory ["lib"]
  | dir_architecture : forall a, In a architectures -> our_directory ["lib"; a]
  | dir_configuration : forall a c, In a architectures -> In c configurations ->
      our_directory ["lib"; a; c].

(** A disk makes sense if whatever there is lies in a directory. *)
Definition sound (d : disk) : Prop :=
  forall p x, look d (p ++ [x]) <> None -> look d p = Some Dir.

(** There is something in the directory. *)
Definition occupied (d : disk) (p : path) : Prop :=
  exists x, look d (p ++ [x]) <> None.

(** Nothing else has changed: neither what is at any other path nor what may
    be written. *)
Definition untouched_but (mine : path -> Prop) (d d' : disk) : Prop :=
  writable d' = writable d /\ forall p, ~ mine p -> look d' p = look d p.

(** Below [top], at one of our files or directories. *)
Definition ours (top : path) (p : path) : Prop :=
  exists s, p = top ++ s /\ (our_file s \/ our_directory s).
