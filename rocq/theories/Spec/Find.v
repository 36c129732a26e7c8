(** What /repo/FindANSAK.cmake promises (its lines 40-126), without its code. *)
From Coq Require Import ZArith List String.
From Verif Require Import Model.Make Model.Find Spec.Install Spec.Unix.
Import ListNotations.
Open Scope string_scope.
Open Scope list_scope.

Definition there (d : disk) (p : path) : Prop := exists data, look d p = Some (File data).

(** The installation at [r] has a header. *)
Definition main_header (r : path) : path := r ++ ["include"; "ansak"; "string.hxx"].

(** Nothing of the name in the directories cmake prefers to the hints. *)
Definition clear (s : settings) (d : disk) (k : kind) (name : string) : Prop :=
  forall x, In x (earlier s k) -> ~ there d (x ++ [name]).

(** Where to look: the variable, then the environment, then on Windows PROGRAM_DATA
    likewise, then C:/ProgramData. *)
Inductive chosen (s : settings) : path -> Prop :=
  | by_variable : forall r, ansak_dir s = Some r -> chosen s r
  | by_environment : forall r, ansak_dir s = None -> env_ansak_dir s = Some r -> chosen s r
  | by_program_data : forall r, ansak_dir s = None -> env_ansak_dir s = None -> unix s = false ->
      program_data s = Some r -> chosen s r
  | by_env_program_data : forall r, ansak_dir s = None -> env_ansak_dir s = None -> unix s = false ->
      program_data s = None -> env_program_data s = Some r -> chosen s r
  | by_default : ansak_dir s = None -> env_ansak_dir s = None -> unix s = false ->
      program_data s = None -> env_program_data s = None -> chosen s ["C:"; "ProgramData"].

(** The names of a directory for each architecture (lines 118-121), as far as
    Windows tells them apart. *)
Inductive architecture : string -> string -> Prop :=
  | arch_win32 : forall a, In a ["Win32"; "x86"; "i386"] -> architecture "Win32" a
  | arch_x64 : forall a, In a ["x64"; "Win64"; "x86_64"; "x86-64"; "amd64"] -> architecture "x64" a
  | arch_arm : architecture "ARM" "ARM"
  | arch_arm64 : architecture "ARM64" "ARM64".

Definition platforms : list string := ["ARM"; "ARM64"; "Win32"; "x64"].

(** The three layouts of lines 107-117. *)
Inductive layout (r : path) : string -> path -> Prop :=
  | case_1 : forall a, layout r a (r ++ ["lib"; library])
  | case_2 : forall a, layout r a (r ++ ["lib"; "Debug"; library])
  | case_3 : forall a n, architecture a n -> layout r a (r ++ ["lib"; n; "Debug"; library]).

(** ANSAK_INCLUDE is the include directory at [r], left unset in standard places. *)
Definition includes (f : found) (r : path) : Prop :=
  ((r = ["usr"] \/ r = ["usr"; "local"]) -> include_path f = None) /\
  (r <> ["usr"] -> r <> ["usr"; "local"] -> include_path f = Some (r ++ ["include"])).

Definition spelt (p : path) : string := String.concat "" (map (append "/") p).
