(** The recipes of /repo/Makefile that install, remove and clean: 78-92 and
    142-149.  Those that compare time stamps are in Model/Stamps.v.

    Simplified:
    - The disk is that of Model/Make.v: no links, no modes but who may write
      where.  What may not be written by the user may be by root.
    - PREFIX, the directory of the sources and the home directory are given as
      paths; their names hold no blanks and nothing the shell or make would
      expand; no name in interface or build begins with a dash.
    - The prerequisites of a target are up to date.
    - A line of a recipe is one shell; make stops at the first one that fails
      (Raised).  Which of several errors of one command is told is not the
      command's own choice here: it is the first.
    - rm does not ask. *)
From Coq Require Import ZArith List Bool String Ascii.
From Verif Require Import Model.Make Model.Stamps.
Import ListNotations.
Open Scope string_scope.
Open Scope list_scope.

(** A command that goes on after an error and tells it in the end *)
Fixpoint all_of {A} (f : A -> io unit) (l : list A) : io unit := fun d =>
  match l with
  | [] => (Returned tt, d)
  | a :: l =>
      let (r, d1) := f a d in
      let (r', d2) := all_of f l d1 in
      (match r with Returned _ => r' | Raised e => Raised e end, d2)
  end.

(** sudo, or nothing *)
Definition as_root (root : bool) (m : io unit) : io unit := fun d =>
  if root then
    let (r, d') := m {| entries := entries d; writable := fun _ => true |} in
    (r, {| entries := entries d'; writable := writable d |})
  else m d.

(** mkdir -p *)
Fixpoint mkdir_below (top rest : path) : io unit :=
  match rest with
  | [] => ret tt
  | x :: rest =>
      (fun d => if is_dir d (top ++ [x]) then (Returned tt, d) else mkdir (top ++ [x]) d) ;;;
      mkdir_below (top ++ [x]) rest
  end.

Definition mkdir_p (p : path) : io unit := mkdir_below [] p.

(** What the names in a directory are, and which of them a pattern "*..." takes *)
Definition hidden (x : string) : bool :=
  match x with String c _ => Ascii.eqb c "." | EmptyString => false end.

Definition names_in (d : disk) (p : path) : list string :=
  nodup string_dec (map (fun e => basename (fst e)) (filter (child_of p) (entries d))).

Definition glob (ending : string) (d : disk) (p : path) : list string :=
  filter (fun x => negb (hidden x) && ends ending x) (names_in d p).

(** A pattern that nothing matches stands for itself. *)
Definition expand (ending : string) (d : disk) (p : path) : list string :=
  match glob ending d p with
  | [] => [append "*" ending]
  | l => l
  end.

(** cp *)
Definition cp (srcs : list path) (dst : path) : io unit := fun d =>
  match srcs with
  | [src] => copy2 src dst d
  | _ => if is_dir d dst then all_of (fun src => copy2 src dst) srcs d else (Raised NotFound, d)
  end.

(** rm *)
Definition rm (ps : list path) : io unit := all_of unlink ps.

(** rm -rf of one *)
Definition rm_rf (p : path) : io unit := fun d =>
  match look d p with
  | None => (Returned tt, d)
  | Some (File _) => unlink p d
  | Some Dir => rmtree p d
  end.

Section Recipes.
Variable sudo : bool.             (* SUDO is "sudo", or empty *)
Variables prefix here home : path.
Variable config : bool.           (* CONFIG is "Release", or empty *)

(** Makefile 53-59 *)
Definition product_dir : path := if config then ["build"; "Release"] else ["build"].

(** Makefile 78-82 *)
Definition make_install : io unit :=
  as_root sudo (mkdir_p (prefix ++ ["include"; "ansak"])) ;;;
  (fun d => as_root sudo (cp (map (fun x => here ++ ["interface"; x]) (expand "hxx" d (here ++ ["interface"])))
                             (prefix ++ ["include"; "ansak"])) d) ;;;
  as_root sudo (mkdir_p (prefix ++ ["lib"])) ;;;
  as_root sudo (cp [here ++ product_dir ++ ["libansakString.a"]] (prefix ++ ["lib"])).

(** "if test -d p; then m; fi" *)
Definition if_dir (p : path) (m : io unit) : io unit := fun d =>
  if is_dir d p then m d else (Returned tt, d).

(** "a ; b": what a comes to is lost *)
Definition semicolon (a b : io unit) : io unit := fun d => b (snd (a d)).

(** Makefile 85-92 *)
Definition make_uninstall : io unit :=
  as_root sudo (rm (map (fun h => prefix ++ ["include"; "ansak"; h])
                        ["string.hxx"; "string_trim.hxx"; "string_splitjoin.hxx"])) ;;;
  as_root sudo (rm [prefix ++ ["lib"; "libansakString.a"]]) ;;;
  if_dir (prefix ++ ["include"; "ansak"]) (as_root sudo (rmdir (prefix ++ ["include"; "ansak"]))) ;;;
  (if sudo then ret tt
   else semicolon (if_dir (prefix ++ ["include"]) (rmdir (home ++ ["include"])))
                  (if_dir (prefix ++ ["lib"]) (rmdir (home ++ ["lib"])))).

(** Makefile 142-144: if there is no directory build, cd fails and rm runs
    where make does *)
Definition make_clean : io unit := fun d =>
  let cwd := if is_dir d (here ++ ["build"]) then here ++ ["build"] else here in
  all_of (fun x => rm_rf (cwd ++ [x])) (expand "" d cwd) d.

(** Makefile 147-149 *)
Definition rm_f_one (p : path) : io unit := fun d =>
  match look d p with None => (Returned tt, d) | _ => unlink p d end.

Definition make_scrub : io unit :=
  rm_rf (here ++ ["build"]) ;;; rm_f_one (here ++ ["config.make"]).

End Recipes.
