(** What /repo/configure promises: its usage (86-96), the comment on sudo
    (175-176) and /repo/README.md 76-101. *)
From Coq Require Import List Bool String Ascii.
From Verif Require Import Model.Configure.
Import ListNotations.
Open Scope string_scope.
Open Scope list_scope.

(** The options, one by one, and how they are given. *)
Inductive item :=
  | Prefix (x : string)
  | Compiler (x : string)
  | Version (x : string)
  | Verbose (long : bool).

Definition spelt (i : item) : list string :=
  match i with
  | Prefix x => ["--prefix"; x]
  | Compiler x => ["--compiler"; x]
  | Version x => ["--unicode-version"; x]
  | Verbose long => [if long then "--verbose" else "-v"]
  end.

Definition proper (i : item) : Prop :=
  match i with Prefix x | Compiler x | Version x => x <> "" | Verbose _ => True end.

(** The last one given, or what there was. *)
Definition given (get : item -> option string) (is : list item) (default : string) : string :=
  fold_left (fun v i => match get i with Some x => x | None => v end) is default.

Definition the_prefix (i : item) : option string := match i with Prefix x => Some x | _ => None end.
Definition the_compiler (i : item) : option string := match i with Compiler x => Some x | _ => None end.
Definition the_version (i : item) : option string := match i with Version x => Some x | _ => None end.

(** README.md 77, 87, 99 *)
Definition documented_prefix (w : surroundings) : string :=
  match system_of w with Darwin => env_home w | Windows => "/usr/local" | Other => "/usr/local" end.

(** "starts with /usr or /Applications" *)
Definition within (top p : string) : Prop := p = top \/ exists s, p = append top (append "/" s).

Definition privileged (w : surroundings) (p : string) : Prop :=
  system_of w <> Windows /\ (within "/usr" p \/ within "/Applications" p).

(** One word: nothing a shell splits at, and nothing make takes for a comment. *)
Definition word (s : string) : Prop :=
  forall n c, String.get n s = Some c -> blank c = false /\ c <> "#"%char.

(** Words with one blank between them. *)
Definition neat (s : string) : Prop :=
  exists ws, Forall (fun x => x <> "" /\ word x) ws /\ s = String.concat " " ws.
