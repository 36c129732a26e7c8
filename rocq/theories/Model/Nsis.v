(** The installer and the uninstaller that /repo/NSIS/ansak-string.nsi
    describes: 134-219.

    Simplified:
    - The disk is that of Model/Make.v, $INSTDIR a path on it.
    - Where a file cannot be written the installer asks what to do; the answer
      here is to give up (Raised).  Other commands that fail set the error flag,
      at which the script looks only in [un.isEmptyDir].
    - The pages, the question whether to remove (120-128) and the resources are
      left out.
    - A search lists "." and ".." first.  Strings are compared exactly: those
      compared are ".", ".." and "1". *)
From Coq Require Import ZArith List Bool String Ascii.
From Verif Require Import Model.Make Model.Unix.
Import ListNotations.
Open Scope string_scope.
Open Scope list_scope.

(** * What makensis puts into the installer *)

(** ansak-string.nsi 138-155: the directories, in this order *)
Definition groups : list path :=
  [["include"; "ansak"];
   ["lib"; "Win32"; "Debug"]; ["lib"; "Win32"; "RelWithDebInfo"];
   ["lib"; "Win32"; "MinSizeRel"]; ["lib"; "Win32"; "Release"];
   ["lib"; "x64"; "Debug"]; ["lib"; "x64"; "RelWithDebInfo"];
   ["lib"; "x64"; "MinSizeRel"]; ["lib"; "x64"; "Release"]].

Definition group := (path * list (string * list Z))%type.

(** "File dir\*": the files in the directory as they are when makensis runs *)
Definition collect (d : disk) (p : path) : list (string * list Z) :=
  flat_map (fun x => match look d (p ++ [x]) with Some (File data) => [(x, data)] | _ => [] end)
           (names_in d p).

(** makensis fails where there is none. *)
Fixpoint pack_groups (root : path) (gs : list path) (d : disk) : option (list group) :=
  match gs with
  | [] => Some []
  | g :: gs =>
      match collect d (root ++ g), pack_groups root gs d with
      | [], _ => None
      | fs, Some l => Some ((g, fs) :: l)
      | _, None => None
      end
  end.

(** 135-136 *)
Definition pack (root : path) (d : disk) : option (list group) :=
  match look d (root ++ ["FindANSAK.cmake"]), pack_groups root groups d with
  | Some (File data), Some l => Some (([], [("FindANSAK.cmake", data)]) :: l)
  | _, _ => None
  end.

(** * The installer *)

(** A file taken out of the installer *)
Definition write (p : path) (data : list Z) : io unit := fun d =>
  match look d p with
  | Some Dir => (Raised Denied, d)
  | _ =>
      if negb (is_dir d (parent p)) then (Raised NotFound, d)
      else if negb (writable d p) then (Raised Denied, d)
      else (Returned tt, put d p (File data))
  end.

Definition uninstaller_name : string := "uninstall-ansak-string.exe".

(** 134-159; the content of the uninstaller is [exe].  [semicolon] is that of
    Model/Unix.v: SetOutPath that fails only sets the error flag, and so does
    WriteUninstaller. *)
Definition install_group (inst : path) (g : group) : io unit :=
  semicolon (mkdir_p (inst ++ fst g))
            (each (fun f => write (inst ++ fst g ++ [fst f]) (snd f)) (snd g)).

Definition install_section (pkg : list group) (inst : path) (exe : list Z) : io unit :=
  each (install_group inst) pkg ;;;
  semicolon (write (inst ++ [uninstaller_name]) exe) (ret tt).

(** * un.isEmptyDir (161-184), a function on a stack and two registers *)

Inductive value := Text (s : string) | Place (p : path) | Search (n : nat).

Inductive reg := R0 | R1.

Inductive instr :=
  | Exch (r : reg)
  | Push (r : reg)
  | Pop (r : reg)
  | FindFirst (handle name dir : reg)       (* FindFirst $handle $name "$dir\*.*" *)
  | FindNext (handle name : reg)
  | FindClose (handle : reg)
  | StrCmp (r : reg) (s : string) (unequal : string)   (* StrCmp $r "s" 0 unequal *)
  | ClearErrors
  | IfErrors (without : string)             (* IfErrors 0 without *)
  | StrCpy (r : reg) (s : string)
  | Goto (l : string)
  | Label (l : string).

Record machine := {
  r0 : value; r1 : value;
  stack : list value;
  errors : bool;
  searches : list (nat * list string);      (* open, with what is still to come *)
  counter : nat }.

Definition get (r : reg) (m : machine) : value := match r with R0 => r0 m | R1 => r1 m end.

Definition set (r : reg) (v : value) (m : machine) : machine :=
  match r with
  | R0 => {| r0 := v; r1 := r1 m; stack := stack m; errors := errors m; searches := searches m; counter := counter m |}
  | R1 => {| r0 := r0 m; r1 := v; stack := stack m; errors := errors m; searches := searches m; counter := counter m |}
  end.

Definition with_stack (st : list value) (m : machine) : machine :=
  {| r0 := r0 m; r1 := r1 m; stack := st; errors := errors m; searches := searches m; counter := counter m |}.

Definition with_errors (e : bool) (m : machine) : machine :=
  {| r0 := r0 m; r1 := r1 m; stack := stack m; errors := e; searches := searches m; counter := counter m |}.

Definition with_searches (l : list (nat * list string)) (n : nat) (m : machine) : machine :=
  {| r0 := r0 m; r1 := r1 m; stack := stack m; errors := errors m; searches := l; counter := n |}.

Fixpoint assoc (l : list (nat * list string)) (n : nat) : option (list string) :=
  match l with
  | [] => None
  | (k, x) :: l => if Nat.eqb k n then Some x else assoc l n
  end.

Definition close (l : list (nat * list string)) (n : nat) : list (nat * list string) :=
  filter (fun e => negb (Nat.eqb (fst e) n)) l.

Section Machine.
Variable d : disk.

Definition step (i : instr) (m : machine) : machine * option string :=
  match i with
  | Exch r =>
      match stack m with
      | v :: st => (set r v (with_stack (get r m :: st) m), None)
      | [] => (with_errors true m, None)
      end
  | Push r => (with_stack (get r m :: stack m) m, None)
  | Pop r =>
      match stack m with
      | v :: st => (set r v (with_stack st m), None)
      | [] => (with_errors true m, None)
      end
  | FindFirst h x dir =>
      match get dir m with
      | Place p =>
          if is_dir d p then
            (set x (Text ".") (set h (Search (counter m))
               (with_searches ((counter m, ".." :: names_in d p) :: searches m) (S (counter m)) m)), None)
          else (with_errors true (set x (Text "") (set h (Text "") m)), None)
      | _ => (with_errors true (set x (Text "") (set h (Text "") m)), None)
      end
  | FindNext h x =>
      match get h m with
      | Search n =>
          match assoc (searches m) n with
          | Some (f :: rest) =>
              (set x (Text f) (with_searches ((n, rest) :: close (searches m) n) (counter m) m), None)
          | _ => (with_errors true (set x (Text "") m), None)
          end
      | _ => (with_errors true (set x (Text "") m), None)
      end
  | FindClose h =>
      match get h m with
      | Search n => (with_searches (close (searches m) n) (counter m) m, None)
      | _ => (m, None)
      end
  | StrCmp r s l =>
      (m, match get r m with
          | Text t => if String.eqb t s then None else Some l
          | _ => Some l
          end)
  | ClearErrors => (with_errors false m, None)
  | IfErrors l => (with_errors false m, if errors m then None else Some l)
  | StrCpy r s => (set r (Text s) m, None)
  | Goto l => (m, Some l)
  | Label _ => (m, None)
  end.

(** The instructions from a label on *)
Fixpoint from (l : string) (prog : list instr) : list instr :=
  match prog with
  | [] => []
  | Label l' :: rest => if String.eqb l l' then rest else from l rest
  | _ :: rest => from l rest
  end.

(** All jumps go forward. *)
Fixpoint execute (fuel : nat) (prog : list instr) (m : machine) : option machine :=
  match prog with
  | [] => Some m
  | i :: rest =>
      match fuel with
      | O => None
      | S fuel =>
          let (m', jump) := step i m in
          execute fuel (match jump with Some l => from l rest | None => rest end) m'
      end
  end.

(** 162-183 *)
Definition un_isEmptyDir : list instr :=
  [Exch R0;
   Push R1;
   FindFirst R0 R1 R0;
   StrCmp R1 "." "_notempty";
     FindNext R0 R1;
     StrCmp R1 ".." "_notempty";
       ClearErrors;
       FindNext R0 R1;
       IfErrors "_notempty";
         FindClose R0;
         Pop R1;
         StrCpy R0 "1";
         Exch R0;
         Goto "_end";
       Label "_notempty";
         FindClose R0;
         ClearErrors;
         Pop R1;
         StrCpy R0 "0";
         Exch R0;
   Label "_end"].

Definition call (m : machine) : option machine := execute 21 un_isEmptyDir m.

(** 210-213: Push, Call, Pop $0, StrCmp $0 "1" *)
Definition answers_one (p : path) (m : machine) : bool :=
  match call (with_stack (Place p :: stack m) m) with
  | Some m' => match stack m' with Text t :: _ => String.eqb t "1" | _ => false end
  | None => false
  end.

End Machine.

(** * The uninstaller *)

Definition quiet (m : io unit) (d : disk) : disk := snd (m d).

(** 191-207 *)
Definition deletions : list path :=
  [["include"; "ansak"; "string.hxx"];
   ["include"; "ansak"; "string_splitjoin.hxx"];
   ["include"; "ansak"; "string_trim.hxx"];
   ["lib"; "Win32"; "Debug"; "ansakString.lib"];
   ["lib"; "Win32"; "Debug"; "ansakString.pdb"];
   ["lib"; "Win32"; "RelWithDebInfo"; "ansakString.lib"];
   ["lib"; "Win32"; "RelWithDebInfo"; "ansakString.pdb"];
   ["lib"; "Win32"; "MinSizeRel"; "ansakString.lib"];
   ["lib"; "Win32"; "Release"; "ansakString.lib"];
   ["lib"; "x64"; "Debug"; "ansakString.lib"];
   ["lib"; "x64"; "Debug"; "ansakString.pdb"];
   ["lib"; "x64"; "RelWithDebInfo"; "ansakString.lib"];
   ["lib"; "x64"; "RelWithDebInfo"; "ansakString.pdb"];
   ["lib"; "x64"; "MinSizeRel"; "ansakString.lib"];
   ["lib"; "x64"; "Release"; "ansakString.lib"]].

(** the registers when the section begins *)
Definition fresh_machine : machine :=
  {| r0 := Text ""; r1 := Text ""; stack := []; errors := false; searches := []; counter := 0 |}.

(** 190-219 *)
Definition uninstall_section (inst : path) (d : disk) : disk :=
  let d := fold_left (fun d p => quiet (unlink (inst ++ p)) d) deletions d in
  let d := if answers_one d (inst ++ ["include"; "ansak"]) fresh_machine
           then quiet (unlink (inst ++ ["FindANSAK.cmake"])) (quiet (rmdir (inst ++ ["include"; "ansak"])) d)
           else d in
  quiet (unlink (inst ++ [uninstaller_name])) d.
