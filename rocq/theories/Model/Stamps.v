(** When the scripts build again: the time stamps /repo/make.py and
    /repo/Makefile compare.

    Simplified:
    - What cmake, ctest and makensis do is one thing here: they either work,
      and then what they leave was made from the sources as they are, or fail,
      and leave anything.  They take one unit of time, and nobody writes a
      source meanwhile.
    - A source has a path, a content and the time it was last written; time
      moves on between any two events.
    - A run of make.py is given one target, so [done_] (make.py 231, 289, 314, 415)
      does not matter; Model/Targets.v has it.
    - configvars.py is there, since make.py imports it. *)
From Coq Require Import ZArith List Bool String Ascii.
From Verif Require Import Model.Make.
Import ListNotations.
Open Scope string_scope.
Open Scope list_scope.

Definition content := list Z.
Definition source := (path * (content * Z))%type.
Definition snapshot := path -> option content.

(** What can be made: the libraries (mark build\all.touch), a tested state
    (mark build\test.touch), the installer (which is its own mark). *)
Inductive product := Libraries | Tests | Installer.

Definition same_product (a b : product) : bool :=
  match a, b with
  | Libraries, Libraries | Tests, Tests | Installer, Installer => true
  | _, _ => false
  end.

Record world := {
  sources : list source;
  now : Z;
  mark : product -> option Z;
  made : product -> snapshot }.

Fixpoint file_in (l : list source) (p : path) : option (content * Z) :=
  match l with
  | [] => None
  | (q, f) :: l => if same q p then Some f else file_in l p
  end.

Definition file_at (w : world) (p : path) : option (content * Z) := file_in (sources w) p.

(** The sources as they are. *)
Definition current (w : world) : snapshot := fun p => option_map fst (file_at w p).

Definition remove (l : list source) (p : path) : list source :=
  filter (fun f => negb (same (fst f) p)) l.

Definition set {A} (f : product -> A) (x : product) (a : A) : product -> A :=
  fun y => if same_product x y then a else f y.

(** Somebody writes or deletes a file, or puts a file back with the time stamp
    it had elsewhere. *)
Definition write (p : path) (c : content) (w : world) : world :=
  {| sources := (p, (c, (now w + 1)%Z)) :: remove (sources w) p;
     now := (now w + 1)%Z; mark := mark w; made := made w |}.

Definition delete (p : path) (w : world) : world :=
  {| sources := remove (sources w) p;
     now := (now w + 1)%Z; mark := mark w; made := made w |}.

Definition restore (p : path) (c : content) (t : Z) (w : world) : world :=
  {| sources := (p, (c, t)) :: remove (sources w) p;
     now := (now w + 1)%Z; mark := mark w; made := made w |}.

(** * make.py *)

(** str.startswith and the end of a name that a pattern asks for *)
Fixpoint starts (a s : string) : bool :=
  match a, s with
  | EmptyString, _ => true
  | String x a, String y s => Ascii.eqb x y && starts a s
  | String _ _, EmptyString => false
  end.

Fixpoint ends (a s : string) : bool :=
  String.eqb a s ||
  match s with
  | EmptyString => false
  | String _ s => ends a s
  end.

(** make.py 120-128: configvars.py, every CMakeLists.txt and whatever is called
    "*[hc]xx", unless its path starts with "submods" or "build" *)
Definition derived (p : path) : bool :=
  starts "submods" (hd "" p) || starts "build" (hd "" p).

Definition watched (p : path) : bool :=
  (same p ["configvars.py"] || String.eqb (basename p) "CMakeLists.txt" ||
   ends "hxx" (basename p) || ends "cxx" (basename p)) && negb (derived p).

(** make.py 419: Path('NSIS').glob('*'), for the installer only *)
Definition watched_for (x : product) (p : path) : bool :=
  watched p ||
  match x with
  | Installer => Nat.eqb (List.length p) 2 && String.eqb (hd "" p) "NSIS"
  | _ => false
  end.

(** make.py 110-128: [source_is_newer] *)
Definition source_is_newer (x : product) (w : world) : bool :=
  match mark w x with
  | None => true
  | Some stamp =>
      existsb (fun f : source => watched_for x (fst f) && Z.ltb stamp (snd (snd f)))
              (sources w)
  end.

(** How the other programs fare. *)
Inductive tools :=
  | Work
  | Fail (junk : snapshot).

(** make.py 252-286, 292-311, 419-486: make [x] if something is newer, and say
    whether that went well; a failure ends the script (make.py 131-134). *)
Definition visit (x : product) (t : tools) (w : world) : bool * world :=
  if negb (source_is_newer x w) then (true, w)
  else match t with
  | Work => (true, {| sources := sources w; now := (now w + 1)%Z;
                      mark := set (mark w) x (Some (now w + 1)%Z);
                      made := set (made w) x (current w) |})
  | Fail junk => (false, {| sources := sources w; now := (now w + 1)%Z;
                            mark := mark w; made := set (made w) x junk |})
  end.

(** make.py 289-290, 415-416: the libraries before the tests, the tests before
    the installer *)
Definition steps (x : product) : list product :=
  match x with
  | Libraries => [Libraries]
  | Tests => [Libraries; Tests]
  | Installer => [Libraries; Tests; Installer]
  end.

Fixpoint visit_all (xs : list product) (t : product -> tools) (w : world) : bool * world :=
  match xs with
  | [] => (true, w)
  | x :: xs =>
      match visit x (t x) w with
      | (true, w') => visit_all xs t w'
      | (false, w') => (false, w')
      end
  end.

Definition run (x : product) (t : product -> tools) (w : world) : bool * world :=
  visit_all (steps x) t w.

(** make.py 488-500: [clean], with makensis there (C113) *)
Definition clean_up (w : world) : world :=
  {| sources := sources w; now := (now w + 1)%Z;
     mark := fun _ => None; made := fun _ _ => None |}.

Inductive event :=
  | Write (p : path) (c : content)
  | Delete (p : path)
  | Restore (p : path) (c : content) (t : Z)
  | Run (x : product) (t : product -> tools)
  | Clean.

Definition happen (w : world) (e : event) : world :=
  match e with
  | Write p c => write p c w
  | Delete p => delete p w
  | Restore p c t => restore p c t w
  | Run x t => snd (run x t w)
  | Clean => clean_up w
  end.

Definition history (w : world) (es : list event) : world := fold_left happen es w.

(** Before anything has been made; the sources may be of any age. *)
Definition start (l : list source) (t : Z) : world :=
  {| sources := l; now := t; mark := fun _ => None; made := fun _ _ => None |}.

(** * The Makefile *)

(** Makefile 60 and 64 read build/deps, the list of sources /repo/configure 226
    has written; config.make is a source here.  [None]: build/deps is not
    there. *)
Record unix := {
  tree : world;
  deps : option (list path) }.

(** configure 226: -name '*.[ch]xx' or -name CMakeLists.txt, nothing below a
    directory called submods *)
Definition listed (p : path) : bool :=
  (ends ".cxx" (basename p) || ends ".hxx" (basename p) ||
   String.eqb (basename p) "CMakeLists.txt") &&
  negb (existsb (String.eqb "submods") p).

(** configure 202, 215-226: config.make is written anew, then the list *)
Definition configure (settings : content) (u : unix) : unix :=
  let w := write ["config.make"] settings (tree u) in
  {| tree := w;
     deps := Some (["packaging.cmake"] :: filter listed (map fst (sources w))) |}.

(** Makefile 64: what build/all.touch depends on *)
Definition prerequisites (u : unix) : list path :=
  ["config.make"] :: match deps u with Some l => l | None => [] end.

Definition missing (w : world) (p : path) : bool :=
  match file_at w p with Some _ => false | None => true end.

Definition newer (w : world) (stamp : Z) (p : path) : bool :=
  match file_at w p with Some (_, t) => Z.ltb stamp t | None => false end.

Definition out_of_date (u : unix) : bool :=
  match mark (tree u) Libraries with
  | None => true
  | Some stamp => existsb (newer (tree u) stamp) (prerequisites u)
  end.

Definition set_made (x : product) (t : tools) (w : world) : bool * world :=
  match t with
  | Work => (true, {| sources := sources w; now := (now w + 1)%Z;
                      mark := set (mark w) x (Some (now w + 1)%Z);
                      made := set (made w) x (current w) |})
  | Fail junk => (false, {| sources := sources w; now := (now w + 1)%Z;
                            mark := mark w; made := set (made w) x junk |})
  end.

(** Makefile 62-67: [make all].  A prerequisite that is not there and has no
    rule is an error before anything is done. *)
Definition make_libraries (t : tools) (u : unix) : bool * unix :=
  if existsb (missing (tree u)) (prerequisites u) then (false, u)
  else if out_of_date u then
    let (ok, w) := set_made Libraries t (tree u) in
    (ok, {| tree := w; deps := deps u |})
  else (true, u).

(** Makefile 70-75: [make test].  Its first prerequisite is not a file, so it
    is always made; the tests are linked with the library, so cmake brings that
    up to date as well. *)
Definition make_tests (t : product -> tools) (u : unix) : bool * unix :=
  match make_libraries (t Libraries) u with
  | (false, u) => (false, u)
  | (true, u) =>
      let (ok, w) := set_made Tests (t Tests) (tree u) in
      (ok, {| tree := match t Tests with
                      | Work => {| sources := sources w; now := now w; mark := mark w;
                                   made := set (made w) Libraries (current w) |}
                      | Fail _ => w
                      end;
              deps := deps u |})
  end.

(** Makefile 142-144: [make clean], where there is a directory build: everything
    in it goes, build/deps too *)
Definition empty_build (u : unix) : unix := {| tree := clean_up (tree u); deps := None |}.

Inductive unix_event :=
  | UWrite (p : path) (c : content)
  | UDelete (p : path)
  | Configure (settings : content)
  | MakeAll (t : tools)
  | MakeTest (t : product -> tools)
  | MakeClean.

Definition unix_happen (u : unix) (e : unix_event) : unix :=
  match e with
  | UWrite p c => {| tree := write p c (tree u); deps := deps u |}
  | UDelete p => {| tree := delete p (tree u); deps := deps u |}
  | Configure settings => configure settings u
  | MakeAll t => snd (make_libraries t u)
  | MakeTest t => snd (make_tests t u)
  | MakeClean => empty_build u
  end.

Definition unix_history (u : unix) (es : list unix_event) : unix :=
  fold_left unix_happen es u.
