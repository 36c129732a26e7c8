(** The scripts that build, install, remove and package the library on
    Windows: /repo/make.py, /repo/project.py, /repo/configure.py and the
    choice of the Unicode version in /repo/CMakeLists.txt 134-160.

    Simplified:
    - A path is its list of names below the root of the volume, and names are
      compared exactly: no case folding, no links, no "." or "..".
    - The disk is what is at each path, together with the paths that may be
      written.  Time stamps and attributes are left out, so [source_is_newer]
      (make.py 110-128) is not here, nor what [copy2] does beyond the content.
    - What other programs do (cmake, ctest, makensis, rmdir) is not here: the
      functions below begin where [make_all] (249-286) or [test] (288-311) has
      returned, and [package] ends before it starts makensis.
    - What is printed is left out. *)
From Coq Require Import ZArith List Bool String Ascii.
From Coq Require Import Numbers.DecimalString Numbers.DecimalZ.
Import ListNotations.
Open Scope string_scope.
Open Scope list_scope.

(** * The disk and what Python's library does to it *)

Definition path := list string.

Inductive node :=
  | Dir
  | File (data : list Z).

(** [entries] holds every path there is except the root, each once as far as
    [look] can tell. *)
Record disk := {
  entries : list (path * node);
  writable : path -> bool }.

Definition same (a b : path) : bool :=
  if list_eq_dec string_dec a b then true else false.

Fixpoint find_in (l : list (path * node)) (p : path) : option node :=
  match l with
  | [] => None
  | (q, n) :: l => if same q p then Some n else find_in l p
  end.

Definition look (d : disk) (p : path) : option node :=
  match p with
  | [] => Some Dir
  | _ => find_in (entries d) p
  end.

Definition without (l : list (path * node)) (p : path) : list (path * node) :=
  filter (fun e => negb (same (fst e) p)) l.

Definition put (d : disk) (p : path) (n : node) : disk :=
  {| entries := (p, n) :: without (entries d) p; writable := writable d |}.

Definition drop (d : disk) (p : path) : disk :=
  {| entries := without (entries d) p; writable := writable d |}.

(** What Python can raise here.  [Exit] is [sys.exit]. *)
Inductive raised :=
  | FileExists | NotFound | Denied | NotEmpty | SameFile | NoKey | Failed
  | Exit (code : Z).

Inductive outcome (A : Type) :=
  | Returned (a : A)
  | Raised (e : raised).
Arguments Returned {A}.
Arguments Raised {A}.

Definition io (A : Type) := disk -> outcome A * disk.

Definition ret {A} (a : A) : io A := fun d => (Returned a, d).
Definition raise {A} (e : raised) : io A := fun d => (Raised e, d).

Definition andthen {A B} (m : io A) (k : A -> io B) : io B := fun d =>
  match m d with
  | (Returned a, d') => k a d'
  | (Raised e, d') => (Raised e, d')
  end.

Notation "x <~ m ;; k" := (andthen m (fun x => k))
  (at level 61, m at next level, right associativity).
Notation "m ;;; k" := (andthen m (fun _ => k))
  (at level 61, right associativity).

Fixpoint each {A} (f : A -> io unit) (l : list A) : io unit :=
  match l with
  | [] => ret tt
  | a :: l => f a ;;; each f l
  end.

Definition parent (p : path) : path := removelast p.
Definition basename (p : path) : string := last p "".

Definition is_dir (d : disk) (p : path) : bool :=
  match look d p with Some Dir => true | _ => false end.

Definition is_file (d : disk) (p : path) : bool :=
  match look d p with Some (File _) => true | _ => false end.

(** os.mkdir *)
Definition mkdir (p : path) : io unit := fun d =>
  match look d p with
  | Some _ => (Raised FileExists, d)
  | None =>
      if negb (is_dir d (parent p)) then (Raised NotFound, d)
      else if negb (writable d p) then (Raised Denied, d)
      else (Returned tt, put d p Dir)
  end.

(** os.unlink, of something that is not a directory *)
Definition unlink (p : path) : io unit := fun d =>
  match look d p with
  | None => (Raised NotFound, d)
  | Some Dir => (Raised Denied, d)
  | Some (File _) =>
      if writable d p then (Returned tt, drop d p) else (Raised Denied, d)
  end.

(** os.listdir *)
Definition child_of (p : path) (e : path * node) : bool :=
  match fst e with
  | [] => false
  | q => same (parent q) p
  end.

Definition is_empty (d : disk) (p : path) : bool :=
  negb (existsb (child_of p) (entries d)).

(** os.rmdir *)
Definition rmdir (p : path) : io unit := fun d =>
  match look d p with
  | None => (Raised NotFound, d)
  | Some (File _) => (Raised NotFound, d)
  | Some Dir =>
      if negb (is_empty d p) then (Raised NotEmpty, d)
      else if writable d p then (Returned tt, drop d p)
      else (Raised Denied, d)
  end.

(** shutil.copy2: into a directory under the name the source has; a source
    that is its own destination is refused before anything is opened, then the
    source is opened, then the destination. *)
Definition copy2 (src dst : path) : io unit := fun d =>
  let dst' := if is_dir d dst then dst ++ [basename src] else dst in
  match look d src with
  | None => (Raised NotFound, d)
  | Some Dir => (Raised Denied, d)
  | Some (File data) =>
      if same src dst' then (Raised SameFile, d)
      else match look d dst' with
      | Some Dir => (Raised Denied, d)
      | _ =>
          if negb (is_dir d (parent dst')) then (Raised NotFound, d)
          else if negb (writable d dst') then (Raised Denied, d)
          else (Returned tt, put d dst' (File data))
      end
  end.

(** * make.py *)

(** make.py 137-146: [create_dirs]; 17 is EEXIST, 13 is EACCES. *)
Fixpoint create_dirs (dirs : list path) : io Z := fun d =>
  match dirs with
  | [] => (Returned 0%Z, d)
  | p :: rest =>
      match mkdir p d with
      | (Returned _, d') => create_dirs rest d'
      | (Raised FileExists, d') =>
          if negb (is_dir d' p) then (Returned 17%Z, d') else create_dirs rest d'
      | (Raised Denied, d') => (Returned 13%Z, d')
      | (Raised e, d') => (Raised e, d')
      end
  end.

(** make.py 160-162: [rm_f] *)
Definition rm_f (p : path) : io unit := fun d =>
  if is_dir d (parent p) && is_file d p then unlink p d else (Returned tt, d).

(** make.py 366-370: [rmdirIfEmpty] *)
Definition rmdir_if_empty (p : path) : io unit := fun d =>
  if is_dir d p then
    if is_empty d p then rmdir p d else (Returned tt, d)
  else (Returned tt, d).

Definition dictionary := list (string * path).

(** paths[key] *)
Definition key_of (m : dictionary) (k : string) : io path := fun d =>
  match find (fun e => String.eqb (fst e) k) m with
  | Some (_, p) => (Returned p, d)
  | None => (Raised NoKey, d)
  end.

(** make.py 171-191: [install_dests] *)
Definition install_dests (prefix : path) : dictionary :=
  let include_root := prefix ++ ["include"] in
  let lib_root := prefix ++ ["lib"] in
  let lib_win32_root := lib_root ++ ["Win32"] in
  let lib_x64_root := lib_root ++ ["x64"] in
  [("include_root", include_root);
   ("include_ansak", include_root ++ ["ansak"]);
   ("lib_root", lib_root);
   ("lib_win32_root", lib_win32_root);
   ("lib_x64_root", lib_x64_root);
   ("lib_win32_release", lib_win32_root ++ ["Release"]);
   ("lib_win32_debug", lib_win32_root ++ ["Debug"]);
   ("lib_win32_relwithdebinfo", lib_win32_root ++ ["RelWithDebInfo"]);
   ("lib_win32_minsizerel", lib_win32_root ++ ["MinSizeRel"]);
   ("lib_x64_release", lib_x64_root ++ ["Release"]);
   ("lib_x64_debug", lib_x64_root ++ ["Debug"]);
   ("lib_x64_relwithdebinfo", lib_x64_root ++ ["RelWithDebInfo"]);
   ("lib_x64_minsizerel", lib_x64_root ++ ["MinSizeRel"])].

(** make.py 193-222: [nsis_dests], below the directory [here] the script is
    run in; [nsis] is whether MAKE_NSIS is set. *)
Definition nsis_dests (here : path) (nsis : bool) : dictionary :=
  if nsis then
    let nsis_root := here ++ ["build"; "nsis"] in
    let nsis_include := nsis_root ++ ["include"] in
    let nsis_lib_root := nsis_root ++ ["lib"] in
    let nsis_lib_win32_root := nsis_lib_root ++ ["Win32"] in
    let nsis_lib_x64_root := nsis_lib_root ++ ["x64"] in
    [("nsis", nsis_root);
     ("include", nsis_include);
     ("include_ansak", nsis_include ++ ["ansak"]);
     ("lib", nsis_lib_root);
     ("lib_win32", nsis_lib_win32_root);
     ("lib_x64", nsis_lib_x64_root);
     ("lib_win32_release", nsis_lib_win32_root ++ ["Release"]);
     ("lib_win32_debug", nsis_lib_win32_root ++ ["Debug"]);
     ("lib_win32_relwithdebinfo", nsis_lib_win32_root ++ ["RelWithDebInfo"]);
     ("lib_win32_minsizerel", nsis_lib_win32_root ++ ["MinSizeRel"]);
     ("lib_x64_release", nsis_lib_x64_root ++ ["Release"]);
     ("lib_x64_debug", nsis_lib_x64_root ++ ["Debug"]);
     ("lib_x64_relwithdebinfo", nsis_lib_x64_root ++ ["RelWithDebInfo"]);
     ("lib_x64_minsizerel", nsis_lib_x64_root ++ ["MinSizeRel"])]
  else [].

(** project.py 59-62: HEADERS_TO_INSTALL *)
Definition headers_to_install : list (path * string) :=
  [(["interface"; "string.hxx"], "include_ansak");
   (["interface"; "string_splitjoin.hxx"], "include_ansak");
   (["interface"; "string_trim.hxx"], "include_ansak")].

(** project.py 64: LIBS_TO_INSTALL *)
Definition libs_to_install : list string := ["ansakString.lib"].

(** '.'.join([lib.split('.')[0], 'pdb']): make.py 325, 380, 445 *)
Fixpoint before_dot (s : string) : string :=
  match s with
  | EmptyString => EmptyString
  | String c s => if Ascii.eqb c "." then EmptyString else String c (before_dot s)
  end.

Definition pdb_of (lib : string) : string := append (before_dot lib) ".pdb".

Section Scripts.
Variables prefix here : path.

Definition copy_to (m : dictionary) (src : path) (key : string) : io unit :=
  dst <~ key_of m key ;; copy2 (here ++ src) dst.

(** make.py 320-361: a PermissionError ends the script with its errno. *)
Definition or_exit (m : io unit) : io unit := fun d =>
  match m d with
  | (Raised Denied, d') => (Raised (Exit 13), d')
  | r => r
  end.

(** make.py 316-361: [install], once the libraries have been built *)
Definition install : io unit :=
  let paths := install_dests prefix in
  dirs_made <~ create_dirs (map snd paths) ;;
  (if Z.eqb dirs_made 0 then ret tt else raise (Exit dirs_made)) ;;;
  or_exit (
    each (fun hpair => copy_to paths (fst hpair) (snd hpair)) headers_to_install ;;;
    each (fun lib =>
      let pdb := pdb_of lib in
      copy_to paths ["build"; "Win32"; "Release"; lib] "lib_win32_release" ;;;
      copy_to paths ["build"; "Win32"; "Debug"; lib] "lib_win32_debug" ;;;
      copy_to paths ["build"; "Win32"; "Debug"; pdb] "lib_win32_debug" ;;;
      copy_to paths ["build"; "Win32"; "RelWithDebInfo"; lib] "lib_win32_relwithdebinfo" ;;;
      copy_to paths ["build"; "Win32"; "RelWithDebInfo"; pdb] "lib_win32_relwithdebinfo" ;;;
      copy_to paths ["build"; "Win32"; "Release"; lib] "lib_win32_release" ;;;
      copy_to paths ["build"; "x64"; "MinSizeRel"; lib] "lib_win32_minsizerel" ;;;
      copy_to paths ["build"; "x64"; "Release"; lib] "lib_x64_release" ;;;
      copy_to paths ["build"; "x64"; "Debug"; lib] "lib_x64_debug" ;;;
      copy_to paths ["build"; "x64"; "Debug"; pdb] "lib_x64_debug" ;;;
      copy_to paths ["build"; "x64"; "RelWithDebInfo"; lib] "lib_x64_relwithdebinfo" ;;;
      copy_to paths ["build"; "x64"; "RelWithDebInfo"; pdb] "lib_x64_relwithdebinfo" ;;;
      copy_to paths ["build"; "x64"; "MinSizeRel"; lib] "lib_x64_minsizerel")
      libs_to_install).

Definition rm_in (m : dictionary) (key : string) (name : string) : io unit :=
  dir <~ key_of m key ;; rm_f (dir ++ [name]).

Definition rmdir_of (m : dictionary) (key : string) : io unit :=
  dir <~ key_of m key ;; rmdir_if_empty dir.

(** make.py 363-408: [uninstall] *)
Definition uninstall : io unit :=
  let paths := install_dests prefix in
  or_exit (
    each (fun hpair : path * string =>
      rm_in paths "include_ansak" (basename (fst hpair))) headers_to_install ;;;
    rmdir_of paths "include_ansak" ;;;
    rmdir_of paths "include_root" ;;;
    each (fun lib =>
      let pdb := pdb_of lib in
      rm_in paths "lib_win32_release" lib ;;;
      rm_in paths "lib_win32_debug" lib ;;;
      rm_in paths "lib_win32_debug" pdb ;;;
      rm_in paths "lib_win32_relwithdebinfo" lib ;;;
      rm_in paths "lib_win32_relwithdebinfo" pdb ;;;
      rm_in paths "lib_win32_minsizerel" lib ;;;
      rm_in paths "lib_x64_release" lib ;;;
      rm_in paths "lib_x64_debug" lib ;;;
      rm_in paths "lib_x64_debug" pdb ;;;
      rm_in paths "lib_x64_relwithdebinfo" lib ;;;
      rm_in paths "lib_x64_relwithdebinfo" pdb ;;;
      rm_in paths "lib_x64_minsizerel" lib) libs_to_install ;;;
    rmdir_of paths "lib_win32_release" ;;;
    rmdir_of paths "lib_win32_debug" ;;;
    rmdir_of paths "lib_win32_relwithdebinfo" ;;;
    rmdir_of paths "lib_win32_minsizerel" ;;;
    rmdir_of paths "lib_win32_root" ;;;
    rmdir_of paths "lib_x64_release" ;;;
    rmdir_of paths "lib_x64_debug" ;;;
    rmdir_of paths "lib_x64_relwithdebinfo" ;;;
    rmdir_of paths "lib_x64_minsizerel" ;;;
    rmdir_of paths "lib_x64_root" ;;;
    rmdir_of paths "lib_root").

(** make.py 455-459, 471-475: the program database of RelWithDebInfo, from one
    of two places *)
Definition copy_either (m : dictionary) (src1 src2 : path) (key : string) : io unit :=
  fun d =>
    if is_file d (here ++ src1) then copy_to m src1 key d else copy_to m src2 key d.

(** make.py 423-427 and 441-477: the part of [package] that gathers the
    headers and libraries; the copying of the scripts of NSIS in between
    (429-439) is left out. *)
Definition gather : io unit :=
  let dests := nsis_dests here true in
  dir_make <~ create_dirs (map snd dests) ;;
  (if Z.eqb dir_make 0 then ret tt else raise (Exit dir_make)) ;;;
  each (fun hpair => copy_to dests (fst hpair) (snd hpair)) headers_to_install ;;;
  each (fun lib =>
    let pdb := pdb_of lib in
    copy_to dests ["build"; "Win32"; "Release"; lib] "lib_win32_release" ;;;
    copy_to dests ["build"; "Win32"; "Debug"; lib] "lib_win32_debug" ;;;
    copy_to dests ["build"; "Win32"; "Debug"; pdb] "lib_win32_debug" ;;;
    copy_to dests ["build"; "Win32"; "RelWithDebInfo"; lib] "lib_win32_relwithdebinfo" ;;;
    copy_either dests ["build"; "Win32"; "RelWithDebInfo"; pdb]
      ["build"; "Win32"; "ansakString.dir"; "RelWithDebInfo"; pdb] "lib_win32_relwithdebinfo" ;;;
    copy_to dests ["build"; "Win32"; "MinSizeRel"; lib] "lib_win32_minsizerel" ;;;
    copy_to dests ["build"; "x64"; "Release"; lib] "lib_x64_release" ;;;
    copy_to dests ["build"; "x64"; "Debug"; lib] "lib_x64_debug" ;;;
    copy_to dests ["build"; "x64"; "Debug"; pdb] "lib_x64_debug" ;;;
    copy_to dests ["build"; "x64"; "RelWithDebInfo"; lib] "lib_x64_relwithdebinfo" ;;;
    copy_either dests ["build"; "x64"; "RelWithDebInfo"; pdb]
      ["build"; "x64"; "ansakString.dir"; "RelWithDebInfo"; pdb] "lib_x64_relwithdebinfo" ;;;
    copy_to dests ["build"; "x64"; "MinSizeRel"; lib] "lib_x64_minsizerel") libs_to_install.

(** shutil.rmtree: everything at or below, if all of it may be written;
    otherwise what has gone by then is not said, so nothing is. *)
Fixpoint below (p q : path) : bool :=
  match p, q with
  | [], _ => true
  | a :: p, b :: q => String.eqb a b && below p q
  | _ :: _, [] => false
  end.

Definition rmtree (p : path) : io unit := fun d =>
  if forallb (fun e => negb (below p (fst e)) || writable d (fst e)) (entries d)
  then (Returned tt, {| entries := filter (fun e => negb (below p (fst e))) (entries d);
                        writable := writable d |})
  else (Raised Denied, d).

(** make.py 489-494: [deleteThese] *)
Definition delete_these (ps : list path) : io unit :=
  each (fun p => fun d => if is_dir d p then rmtree p d else rm_f p d) ps.

(** make.py 488-500: [clean]; [package] is PACKAGE_NAME. *)
Definition clean (nsis : bool) (package : string) : io unit :=
  root <~ key_of (nsis_dests here nsis) "nsis" ;;
  delete_these [here ++ ["build"; "Win32"]; here ++ ["build"; "x64"]; root;
                here ++ ["build"; package]] ;;;
  delete_these [here ++ ["build"; "all.touch"]; here ++ ["build"; "test.touch"]].

End Scripts.

(** make.py 236-247: [valid_order] *)
Definition valid_order (raw_targets : list string) : list string :=
  if existsb (fun t => String.eqb t "help") raw_targets then ["help"]
  else
    let valid := if existsb (fun t => String.eqb t "clean") raw_targets
                 then ["clean"] else [] in
    let valid := valid ++ filter (fun t => negb (String.eqb t "clean")) raw_targets in
    match valid with [] => ["all"] | _ => valid end.

(** make.py 538-541: the keys of [targets] *)
Definition targets : list string :=
  ["all"; "test"; "install"; "uninstall"; "package"; "clean"; "scrub";
   "cmake-install"; "cmake-uninstall"; "help"].

(** make.py 543-547: [process], where [act] is what a target does; an unknown
    target fails its assertion. *)
Definition process (act : string -> io unit) (raw_targets : list string) : io unit :=
  each (fun t => if existsb (String.eqb t) targets then act t else raise Failed)
       (valid_order raw_targets).

(** * Versions and names *)

(** '{}'.format(n) of an int *)
Definition decimal (n : Z) : string := NilZero.string_of_int (Z.to_int n).

(** project.py 66: PACKAGE_NAME; the installer is told the same version
    (make.py 436-437) and calls what it writes by the same name (ansak-string.nsi,
    Outfile). *)
Definition package_name (unicode_version : Z) : string :=
  ("ansak-string-u" ++ decimal unicode_version ++ "-setup.exe")%string.

(** CMakeLists.txt 134-152; make.py 257 hands the version over in decimal.  A
    value cmake takes for false is set to 16 as well, so the two branches are
    one. *)
Definition supported : list string :=
  ["7"; "8"; "9"; "10"; "11"; "12"; "13"; "14"; "15"; "16"].

Definition cmake_version (asked : string) : string :=
  if existsb (String.eqb asked) supported then asked else "16".

(** CMakeLists.txt 160: bitsDir *)
Definition bits_dir (asked : string) : string :=
  append "source/bits" (cmake_version asked).

(** * The compiler *)

(** Python's repr of a str, of the ASCII characters: in single quotes unless
    there is a single quote and no double quote within; the quote and the
    backslash are escaped, and what cannot be printed is spelled out. *)
Definition hex_digit (n : nat) : ascii :=
  ascii_of_nat (if Nat.ltb n 10 then 48 + n else 87 + n).

Definition spelled (quote c : ascii) : string :=
  let n := nat_of_ascii c in
  if Ascii.eqb c quote || Nat.eqb n 92 then String "\" (String c "")
  else if Nat.eqb n 9 then "\t"
  else if Nat.eqb n 10 then "\n"
  else if Nat.eqb n 13 then "\r"
  else if Nat.ltb n 32 || Nat.eqb n 127 then
    String "\" (String "x" (String (hex_digit (Nat.div n 16))
                                   (String (hex_digit (Nat.modulo n 16)) "")))
  else String c "".

Fixpoint spell (quote : ascii) (s : string) : string :=
  match s with
  | EmptyString => EmptyString
  | String c s => append (spelled quote c) (spell quote s)
  end.

Fixpoint has (c : ascii) (s : string) : bool :=
  match s with
  | EmptyString => false
  | String a s => Ascii.eqb a c || has c s
  end.

Definition single : ascii := ascii_of_nat 39.
Definition double : ascii := ascii_of_nat 34.

Definition repr (s : string) : string :=
  let quote := if has single s && negb (has double s) then double else single in
  String quote (append (spell quote s) (String quote "")).

(** configure.py 188-191 and 201: what configvars.py calls COMPILER, given
    --compiler.  The line that is written holds the repr of [compiler], and
    reading it back undoes that repr and not the one before it. *)
Definition configured_compiler (given : option string) : option string :=
  match given with
  | None => None
  | Some "" => None
  | Some s => Some (repr s)
  end.

(** make.py 256 and 85-87: CXX in the environment cmake is started in, where
    [inherited] is CXX in the environment the script was started in. *)
Definition cxx (given inherited : option string) : option string :=
  match configured_compiler given with
  | None => inherited
  | Some "" => inherited
  | Some c => match inherited with Some i => Some i | None => Some c end
  end.
