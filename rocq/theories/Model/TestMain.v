(* mkUnicodeTestData/mkUnicodeTestData.cxx -- main().
   The file system: which names can be stat()ed, which can be opened for reading and for writing, and
   what the files hold.  A file is known by one name only (no links); what goes to cerr is left out. *)
From Coq Require Import ZArith List Bool.
From Verif Require Import Machine.
From Verif.Model Require Import TestData.
Import ListNotations.
Local Open Scope Z_scope.

Fixpoint same_name (a b : list Z) : bool :=
  match a, b with
  | [], [] => true
  | x :: a', y :: b' => (x =? y) && same_name a' b'
  | _, _ => false
  end.

Record world := {
  found_by_stat : list Z -> bool;
  readable : list Z -> bool;
  writable : list Z -> bool;
  content : list Z -> list Z }.

Definition put (w : world) (name data : list Z) : world :=
  {| found_by_stat := fun n => same_name n name || found_by_stat w n;
     readable := readable w; writable := writable w;
     content := fun n => if same_name n name then data else content w n |}.

(* filebuf::open returns a null pointer when the file cannot be opened and throws nothing; the buffer then
   stays closed.  Reading a closed buffer is reading an empty file, writing to it changes no file.
   Opening with ios::out | ios::trunc empties the file before anything is read from inBuf. *)
Definition open_for_writing (w : world) (name : list Z) : world := if writable w name then put w name [] else w.
Definition read_all (opened : bool) (w : world) (name : list Z) : list Z := if opened then content w name else [].
Definition write_all (opened : bool) (w : world) (name data : list Z) : world := if opened then put w name data else w.

(* mkUnicodeTestData.cxx:109-166 -- main(); [args] is argv without argv[0], the result is the exit code
   and the file system left behind.  Nothing in the try block throws, see above, so 3 and 4 never occur
   and opened1, opened2 are not kept. *)
Definition main (fuel : nat) (w : world) (args : list (list Z)) : outcome (Z * world) :=
  match args with
  | [infile; outfile] =>
    if negb (found_by_stat w infile) then Done (2, w)
    else
      let inOpen := readable w infile in
      let outOpen := writable w outfile in
      let w := open_for_writing w outfile in
      do out <- process fuel (read_all inOpen w infile);
      Done (0, write_all outOpen w outfile out)
  | _ => Done (1, w)
  end.
