(** /repo/NSIS/ansak-string.nsi as text: its lines are those of Gen/TextScripts.v,
    and what follows reads and runs them.

    Simplified:
    - A line that ends with a backslash goes on in the next.  A word is within
      double quotes or goes up to the next blank; a semicolon or # where a word
      could begin starts a comment.  Other quotes and escapes do not occur.
    - Commands are told from each other without regard to case, and an unknown
      one makes the whole text unreadable ([None]).  Outside sections and
      functions all lines are left out but UninstPage.
    - The simplifications of Model/Nsis.v, whose disk, registers, stack and
      searches are used.  The pages are left out but for the question that
      comes before the removal. *)
From Coq Require Import ZArith List Bool String Ascii.
From Verif Require Import Model.Make Model.Unix Model.Nsis.
Import ListNotations.
Open Scope string_scope.
Open Scope list_scope.

(** * Lines and words *)

Definition backslash : ascii := "092"%char.
Definition quote : ascii := "034"%char.
Definition blank (c : ascii) : bool := Ascii.eqb c " " || Ascii.eqb c "009"%char.

(** The line without a backslash at its end, if there is one *)
Fixpoint continued (s : string) : option string :=
  match s with
  | EmptyString => None
  | String c EmptyString => if Ascii.eqb c backslash then Some "" else None
  | String c s => option_map (String c) (continued s)
  end.

Fixpoint join_lines (before : string) (ls : list string) : list string :=
  match ls with
  | [] => match before with EmptyString => [] | _ => [before] end
  | l :: ls => match continued l with
               | Some l => join_lines (before ++ l) ls
               | None => (before ++ l)%string :: join_lines "" ls
               end
  end.

(** What is being read: nothing, a word, a word in quotes *)
Inductive place := Between | Bare (w : string) | Quoted (w : string).

Definition snoc (w : string) (c : ascii) : string := (w ++ String c "")%string.

Fixpoint words (at_ : place) (s : string) : option (list string) :=
  match s, at_ with
  | EmptyString, Between => Some []
  | EmptyString, Bare w => Some [w]
  | EmptyString, Quoted _ => None
  | String c s, Between =>
      if blank c then words Between s
      else if Ascii.eqb c ";" || Ascii.eqb c "#" then Some []
      else if Ascii.eqb c quote then words (Quoted "") s
      else words (Bare (String c "")) s
  | String c s, Bare w =>
      if blank c then option_map (cons w) (words Between s) else words (Bare (snoc w c)) s
  | String c s, Quoted w =>
      if Ascii.eqb c quote then option_map (cons w) (words Between s) else words (Quoted (snoc w c)) s
  end.

Definition lower_letter (c : ascii) : ascii :=
  let n := nat_of_ascii c in
  if Nat.leb 65 n && Nat.leb n 90 then ascii_of_nat (n + 32) else c.

Fixpoint lower (s : string) : string :=
  match s with EmptyString => "" | String c s => String (lower_letter c) (lower s) end.

Fixpoint all_some {A} (l : list (option A)) : option (list A) :=
  match l with
  | [] => Some []
  | Some a :: l => option_map (cons a) (all_some l)
  | None :: _ => None
  end.

(** * Commands *)

Fixpoint split_at (c : ascii) (cur s : string) : list string :=
  match s with
  | EmptyString => [cur]
  | String a s => if Ascii.eqb a c then cur :: split_at c "" s else split_at c (snoc cur a) s
  end.

Definition register (w : string) : option reg :=
  if String.eqb w "$0" then Some R0 else if String.eqb w "$1" then Some R1 else None.

(** "$INSTDIR\..." *)
Definition below_inst (w : string) : option path :=
  match split_at backslash "" w with
  | top :: rest => if String.eqb top "$INSTDIR" then Some rest else None
  | [] => None
  end.

(** "$0\*.*" *)
Definition all_in (w : string) : option reg :=
  match split_at backslash "" w with
  | [r; all] => if String.eqb all "*.*" then register r else None
  | _ => None
  end.

Inductive command :=
  | SetOutPath (p : path)
  | OneFile (p : path)                      (* File name *)
  | AllFiles (p : path)                     (* File dir\* *)
  | WriteUninstaller (p : path)
  | Delete (p : path)
  | RMDir (p : path)
  | PushPlace (p : path)
  | Call (f : string)
  | AskNo (l : string)                      (* MessageBox MB_YESNO ... IDNO l *)
  | Return
  | Quit
  | Small (i : instr).

Definition file_of (w : string) : command :=
  let p := split_at backslash "" w in
  if String.eqb (last p "") "*" then AllFiles (removelast p) else OneFile p.

Definition label_of (w : string) : option string :=
  match split_at ":" "" w with
  | [l; rest] => if String.eqb rest "" then Some l else None
  | _ => None
  end.

Definition if_reg (w : string) (f : reg -> command) : option command := option_map f (register w).
Definition if_path (w : string) (f : path -> command) : option command := option_map f (below_inst w).

Definition command_of (ws : list string) : option command :=
  match ws with
  | [] => None
  | c :: args =>
      let c := lower c in
      match args with
      | [] =>
          if String.eqb c "return" then Some Return
          else if String.eqb c "quit" then Some Quit
          else if String.eqb c "clearerrors" then Some (Small ClearErrors)
          else option_map (fun l => Small (Label l)) (label_of (hd "" ws))
      | [a] =>
          if String.eqb c "setoutpath" then if_path a SetOutPath
          else if String.eqb c "file" then Some (file_of a)
          else if String.eqb c "writeuninstaller" then if_path a WriteUninstaller
          else if String.eqb c "delete" then if_path a Delete
          else if String.eqb c "rmdir" then if_path a RMDir
          else if String.eqb c "push" then
            match register a with Some r => Some (Small (Push r)) | None => if_path a PushPlace end
          else if String.eqb c "pop" then if_reg a (fun r => Small (Pop r))
          else if String.eqb c "exch" then if_reg a (fun r => Small (Exch r))
          else if String.eqb c "findclose" then if_reg a (fun r => Small (FindClose r))
          else if String.eqb c "goto" then Some (Small (Goto a))
          else if String.eqb c "call" then Some (Call a)
          else None
      | [a; b] =>
          if String.eqb c "findnext" then
            match register a, register b with Some h, Some x => Some (Small (FindNext h x)) | _, _ => None end
          else if String.eqb c "strcpy" then if_reg a (fun r => Small (StrCpy r b))
          else if String.eqb c "iferrors" && String.eqb a "0" then Some (Small (IfErrors b))
          else None
      | [a; b; e] =>
          if String.eqb c "findfirst" then
            match register a, register b, all_in e with
            | Some h, Some x, Some dir => Some (Small (FindFirst h x dir))
            | _, _, _ => None
            end
          else None
      | [a; b; e; f] =>
          if String.eqb c "strcmp" && String.eqb e "0" then if_reg a (fun r => Small (StrCmp r b f)) else None
      | [a; _; b; e; f; g] =>
          (* the default of a silent run, /SD IDNO, is of no use here *)
          if String.eqb c "messagebox" && String.eqb a "MB_YESNO" && String.eqb b "/SD" && String.eqb e "IDNO" &&
             String.eqb f "IDNO" then Some (AskNo g) else None
      | _ => None
      end
  end.

(** * Sections and functions *)

Record block := { is_section : bool; title : string; body : list command }.

Record script := {
  blocks : list block;
  uninstall_pages : list (list string) }.   (* the words after UninstPage *)

Definition known_top (c : string) : bool :=
  existsb (String.eqb c)
    ["name"; "!include"; "outfile"; "requestexecutionlevel"; "installdir"; "viaddversionkey"; "vifileversion";
     "viproductversion"; "page"; "licensetext"; "licensedata"; "licenseforceselection"; "icon"; "uninstallicon"].

Fixpoint read (cur : option (bool * string * list command)) (ls : list (list string)) : option script :=
  match ls, cur with
  | [], None => Some {| blocks := []; uninstall_pages := [] |}
  | [], Some _ => None
  | [] :: ls, _ => read cur ls
  | (c :: args) :: ls, None =>
      let c := lower c in
      if String.eqb c "section" then read (Some (true, hd "" args, [])) ls
      else if String.eqb c "function" then read (Some (false, hd "" args, [])) ls
      else if String.eqb c "uninstpage" then
        option_map (fun s => {| blocks := blocks s; uninstall_pages := args :: uninstall_pages s |}) (read None ls)
      else if known_top c then read None ls
      else None
  | (c :: args) :: ls, Some (sec, t, done) =>
      if String.eqb (lower c) (if sec then "sectionend" else "functionend") then
        option_map (fun s => {| blocks := {| is_section := sec; title := t; body := done |} :: blocks s;
                                uninstall_pages := uninstall_pages s |}) (read None ls)
      else match command_of (c :: args) with
           | Some x => read (Some (sec, t, done ++ [x])) ls
           | None => None
           end
  end.

Definition read_script (lines : list string) : option script :=
  match all_some (map (words Between) (join_lines "" lines)) with
  | Some ls => read None ls
  | None => None
  end.

Fixpoint find_block (sec : bool) (t : string) (bs : list block) : option (list command) :=
  match bs with
  | [] => None
  | b :: bs => if Bool.eqb (is_section b) sec && String.eqb (title b) t then Some (body b) else find_block sec t bs
  end.

(** * makensis: what File takes *)

Inductive packed :=
  | Extract (fs : list (string * list Z))
  | Other (c : command).

Fixpoint compile (root : path) (d : disk) (cs : list command) : option (list packed) :=
  match cs with
  | [] => Some []
  | c :: cs =>
      match match c with
            | OneFile p => match look d (root ++ p) with
                           | Some (File data) => Some (Extract [(last p "", data)])
                           | _ => None
                           end
            | AllFiles p => match collect d (root ++ p) with
                            | [] => None
                            | fs => Some (Extract fs)
                            end
            | c => Some (Other c)
            end, compile root d cs with
      | Some x, Some l => Some (x :: l)
      | _, _ => None
      end
  end.

(** * The installer; the section has no jumps *)

Fixpoint run_install (inst : path) (exe : list Z) (out : path) (code : list packed) : io unit :=
  match code with
  | [] => ret tt
  | Extract fs :: code =>
      each (fun f => write (out ++ [fst f]) (snd f)) fs ;;; run_install inst exe out code
  | Other (SetOutPath p) :: code =>
      semicolon (mkdir_p (inst ++ p)) (run_install inst exe (inst ++ p) code)
  | Other (WriteUninstaller p) :: code =>
      semicolon (write (inst ++ p) exe) (run_install inst exe out code)
  | Other _ :: _ => raise Failed
  end.

(** * The uninstaller *)

Record state := { the_disk : disk; mach : machine }.

Definition with_disk (d : disk) (s : state) : state := {| the_disk := d; mach := mach s |}.
Definition with_mach (m : machine) (s : state) : state := {| the_disk := the_disk s; mach := m |}.

(** Delete and RMDir set the error flag when they fail; to delete what is not
    there is no failure. *)
Definition try_it (m : io unit) (s : state) : state :=
  let (r, d) := m (the_disk s) in
  with_disk d (match r with
               | Returned _ | Raised NotFound => s
               | Raised _ => with_mach (with_errors true (mach s)) s
               end).

Fixpoint from_label (l : string) (cs : list command) : list command :=
  match cs with
  | [] => []
  | Small (Label l') :: rest => if String.eqb l l' then rest else from_label l rest
  | _ :: rest => from_label l rest
  end.

(** How a block ends: at its end or at Return, or with everything at Quit *)
Inductive ending := Done (s : state) | Stopped (s : state).

Section Run.
Variables (bs : list block) (inst : path) (yes : bool).

(** [None]: the fuel is used up, or a function is missing.  All jumps go
    forward. *)
Fixpoint perform (fuel : nat) (cs : list command) (s : state) : option ending :=
  match fuel with
  | O => None
  | S fuel =>
      match cs with
      | [] | Return :: _ => Some (Done s)
      | Quit :: _ => Some (Stopped s)
      | Delete p :: cs => perform fuel cs (try_it (unlink (inst ++ p)) s)
      | RMDir p :: cs => perform fuel cs (try_it (rmdir (inst ++ p)) s)
      | PushPlace p :: cs => perform fuel cs (with_mach (with_stack (Place (inst ++ p) :: stack (mach s)) (mach s)) s)
      | Call f :: cs =>
          match find_block false f bs with
          | None => None
          | Some body =>
              match perform fuel body s with
              | Some (Done s) => perform fuel cs s
              | other => other
              end
          end
      | AskNo l :: cs => perform fuel (if yes then cs else from_label l cs) s
      | Small i :: cs =>
          let (m, jump) := step (the_disk s) i (mach s) in
          perform fuel (match jump with Some l => from_label l cs | None => cs end) (with_mach m s)
      | SetOutPath _ :: _ | OneFile _ :: _ | AllFiles _ :: _ | WriteUninstaller _ :: _ => None
      end
  end.

End Run.

Definition begin (d : disk) : state := {| the_disk := d; mach := fresh_machine |}.

(** The script as a whole: what the installer does, given the directory makensis
    ran in and the disk at that time *)
Definition install_by (lines : list string) (root : path) (d0 : disk) (inst : path) (exe : list Z) : option (io unit) :=
  match read_script lines with
  | None => None
  | Some s =>
      match find_block true "Headers and Libraries" (blocks s) with
      | None => None
      | Some cs => option_map (run_install inst exe inst) (compile root d0 cs)
      end
  end.

(** The uninstaller: the page with the question first, then the section, unless
    the function of the page quits.  [yes] is the answer. *)
Definition uninstall_by (lines : list string) (yes : bool) (inst : path) (d : disk) : option disk :=
  match read_script lines with
  | None => None
  | Some s =>
      match uninstall_pages s with
      | [["uninstConfirm"; asks]; ["instfiles"]] =>
          match find_block false asks (blocks s), find_block true "Uninstall" (blocks s) with
          | Some q, Some cs =>
              match perform (blocks s) inst yes 100 q (begin d) with
              | None => None
              | Some (Stopped st) => Some (the_disk st)
              | Some (Done st) =>
                  match perform (blocks s) inst yes 100 cs st with
                  | None => None
                  | Some (Stopped st) | Some (Done st) => Some (the_disk st)
                  end
              end
          | _, _ => None
          end
      | _ => None
      end
  end.
