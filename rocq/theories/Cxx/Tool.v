(* mkUnicodeTestData/mkUnicodeTestData.cxx: its syntax and what it means.  Integers, strings and vectors mean what they mean
   in Semantics.v; here are streams, files and what else main() uses.  Calls of functions of the library are left to [R].

   Simplifications
   - What is written to a file reaches it when the filebuf is closed or destroyed (it may be held back until then; this only
     matters if the file is read at the same time).
   - A file is known by one name only (no links).  Writing to an open file and to cerr never fails.
   - No exception is thrown (filebuf::open and close and the streams throw none unless asked to; out_of_range in the
     library is [Undefined]), so what follows catch is never run.
   - A reference parameter is copied in and copied out, as in Semantics.v. *)
From Coq Require Import ZArith List Bool String.
From Verif Require Import Machine.
From Verif.Model Require TestMain.
From Verif.Cxx Require Import Syntax Semantics.
Import ListNotations.
Local Open Scope string_scope.
Local Open Scope list_scope.
Local Open Scope Z_scope.

(* ---------------------------------------------------------------- syntax *)

Inductive texpr :=
| XInt (z : Z)
| XChar (z : Z)
| XText (l : list Z)
| XBool (b : bool)
| XName (x : string)
| XNpos                                       (* string::npos *)
| XNot (a : texpr) | XAnd (a b : texpr) | XOr (a b : texpr)
| XBin (o : binop) (a b : texpr)
| XRem (a b : texpr)                          (* a % b *)
| XAddress (x : string)                       (* &x *)
| XIndex (a i : texpr)
| XCall (f : string) (args : list texpr)
| XMeth (a : texpr) (m : string) (args : list texpr)
| XAssign (x : string) (a : texpr)
| XPreInc (x : string).

Inductive tstmt :=
| YSkip
| YExpr (a : texpr)
| YDecl (t x : string) (a : option texpr)     (* T x; T x = a; *)
| YNew (t x : string) (args : list texpr)     (* T x(args); *)
| YSeq (a b : tstmt)
| YBlock (a : tstmt)
| YIf (c : texpr) (a b : tstmt)
| YWhile (c : texpr) (a : tstmt)
| YContinue
| YReturn (a : texpr)
| YTry (a handler : tstmt).

Record tfun := { t_name : string; t_params : list (string * bool); t_body : tstmt }.   (* the parameters: name, is it a reference? *)

(* ---------------------------------------------------------------- objects *)

(* filebuf: closed; reading this file, so many characters have been read; writing this file, so much so far *)
Inductive buffer := Closed | Reads (file : list Z) (n : nat) | Writes (file data : list Z).

Inductive object :=
| OValue (v : value)
| OText (l : list Z)                          (* const char*, to these characters and a zero *)
| OBuffer (b : buffer)
| OInput (b : string) (good : bool)           (* istream on the filebuf b; what good() says *)
| OOutput (b : string)                        (* ostream on the filebuf b *)
| OErrors                                     (* cerr *)
| OEndl                                       (* endl *)
| OMode (l : list string)                     (* ios::in and so on *)
| OAddress (x : string)
| OArguments (l : list (list Z))              (* argv *)
| OStat.                                      (* struct stat, never read *)

Definition tenv := list (string * object).
Record state := { vars : tenv; files : TestMain.world; errors : list Z }.

Definition with_vars (s : state) (e : tenv) : state := {| vars := e; files := files s; errors := errors s |}.
Definition with_files (s : state) (w : TestMain.world) : state := {| vars := vars s; files := w; errors := errors s |}.

Fixpoint tlook (e : tenv) (x : string) : option object :=
  match e with [] => None | (y, o) :: e' => if String.eqb x y then Some o else tlook e' x end.
Fixpoint tput (e : tenv) (x : string) (o : object) : tenv :=
  match e with [] => [] | (y, p) :: e' => if String.eqb x y then (y, o) :: e' else (y, p) :: tput e' x o end.
Definition assign (s : state) (x : string) (o : object) : state := with_vars s (tput (vars s) x o).
Definition declare (s : state) (x : string) (o : object) : state := with_vars s ((x, o) :: vars s).

(* filebuf::close and the destructor *)
Definition close (b : buffer) (w : TestMain.world) : TestMain.world :=
  match b with Writes f d => TestMain.put w f d | _ => w end.

(* leaving a block: the variables declared in it are destroyed, the last one first *)
Fixpoint destroy (n : nat) (e : tenv) (w : TestMain.world) : tenv * TestMain.world :=
  match n, e with
  | S n, (_, o) :: e => destroy n e (match o with OBuffer b => close b w | _ => w end)
  | _, _ => (e, w)
  end.
Definition tleave (outer inner : state) : state :=
  let (e, w) := destroy (List.length (vars inner) - List.length (vars outer)) (vars inner) (files inner) in
  {| vars := e; files := w; errors := errors inner |}.

(* ---------------------------------------------------------------- the library *)

(* getline: the characters up to the newline; how many are taken from the stream; was there a newline? *)
Fixpoint one_line (l : list Z) : list Z * nat * bool :=
  match l with
  | [] => ([], O, false)
  | c :: l' => if c =? 10 then ([], 1%nat, true) else let '(line, n, more) := one_line l' in (c :: line, S n, more)
  end.

(* [istream::sentry]: without good() nothing is read and the string stays as it is; reading up to the end of the file
   ends good() *)
Definition get_line (s : state) (stream str : string) : outcome (object * state) :=
  match tlook (vars s) stream, tlook (vars s) str with
  | Some (OInput b good), Some (OValue (VS Char _)) =>
    if negb good then Done (OInput b good, s)
    else
      match tlook (vars s) b with
      | Some (OBuffer (Reads f n)) =>
        let '(line, k, more) := one_line (skipn n (TestMain.content (files s) f)) in
        Done (OInput b more,
              assign (assign (assign s b (OBuffer (Reads f (n + k)))) stream (OInput b more)) str (OValue (VS Char line)))
      | Some (OBuffer _) => Done (OInput b false, assign (assign s stream (OInput b false)) str (OValue (VS Char [])))
      | _ => Undefined
      end
  | _, _ => Undefined
  end.

(* basic_string::find(const char* ): where [needle] begins first *)
Fixpoint begins (needle l : list Z) : bool :=
  match needle, l with
  | [], _ => true
  | x :: needle', y :: l' => (x =? y) && begins needle' l'
  | _ :: _, [] => false
  end.
Fixpoint search (needle l : list Z) (n : Z) : Z :=
  if begins needle l then n else match l with [] => npos | _ :: l' => search needle l' (n + 1) end.

(* what << writes *)
Definition shown (o : object) : outcome (list Z) :=
  match o with
  | OText l => Done l
  | OValue (VS Char l) => Done l
  | OValue (VI Char z) => Done [bits Char z]
  | OEndl => Done [10]
  | _ => Undefined
  end.

Definition write (s : state) (stream : object) (l : list Z) : outcome state :=
  match stream with
  | OErrors => Done {| vars := vars s; files := files s; errors := errors s ++ l |}
  | OOutput b =>
    match tlook (vars s) b with
    | Some (OBuffer (Writes f d)) => Done (assign s b (OBuffer (Writes f (d ++ l))))
    | Some (OBuffer _) => Done s                             (* fails; the state of the stream is never asked for *)
    | _ => Undefined
    end
  | _ => Undefined
  end.

(* filebuf::open; the result is tested for being null only in programs *)
Definition open (s : state) (x : string) (b : buffer) (f : list Z) (mode : list string) : outcome (object * state) :=
  let w := files s in
  match b with
  | Closed =>
    match mode with
    | ["ios::in"] =>
      if TestMain.readable w f then Done (OValue (VB true), assign s x (OBuffer (Reads f 0))) else Done (OValue (VB false), s)
    | ["ios::out"; "ios::trunc"] =>
      if TestMain.writable w f
      then Done (OValue (VB true), assign (with_files s (TestMain.put w f [])) x (OBuffer (Writes f [])))
      else Done (OValue (VB false), s)
    | _ => Undefined
    end
  | _ => Done (OValue (VB false), s)
  end.

(* [expr.mul] *)
Definition remainder (I : implementation) (ta : ity) (a : Z) (tb : ity) (b : Z) : outcome value :=
  let t := common ta tb in
  if norm I t b =? 0 then Undefined else result I t (Z.rem (norm I t a) (norm I t b)).

(* ---------------------------------------------------------------- expressions *)

Definition value_of (o : object) : outcome value := match o with OValue v => Done v | _ => Undefined end.
Fixpoint values_of (l : list object) : outcome (list value) :=
  match l with [] => Done [] | o :: l' => do v <- value_of o; do vs <- values_of l'; Done (v :: vs) end.

Definition name_value (e : tenv) (x : string) : outcome object :=
  match tlook e x with
  | Some o => Done o
  | None =>
    if String.eqb x "endl" then Done OEndl
    else if String.eqb x "cerr" then Done OErrors
    else if existsb (String.eqb x) ["ios::in"; "ios::out"; "ios::trunc"] then Done (OMode [x])
    else Undefined
  end.

(* x = v; the type of x stays *)
Definition assignable (old new : object) : bool :=
  match old, new with
  | OValue (VB _), OValue (VB _) => true
  | OValue (VS t _), OValue (VS t' _) | OValue (VVec t _), OValue (VVec t' _) | OValue (VI t _), OValue (VI t' _) => ity_eqb t t'
  | _, _ => false
  end.

(* own functions: what they return, the objects passed by reference, the state without the variables *)
Definition own_calls := string -> list object -> state -> option (outcome (option object * list (option object) * state)).

Fixpoint back (s : state) (args : list texpr) (outs : list (option object)) : state :=
  match args, outs with
  | XName x :: args', Some o :: outs' => back (assign s x o) args' outs'
  | _ :: args', _ :: outs' => back s args' outs'
  | _, _ => s
  end.

Section Execution.
Context (I : implementation) (R : calls) (F : own_calls).

Definition call_of (f : string) (args : list texpr) (os : list object) (s : state) : outcome (object * state) :=
  match F f os s with
  | Some m =>
    do (r, outs, s') <- m;
    Done (match r with Some o => o | None => OValue VVoid end, back (with_vars s' (vars s)) args outs)
  | None =>
    if String.eqb f "getline" then match args with [XName x; XName y] => get_line s x y | _ => Undefined end
    else if String.eqb f "stat" then
      match os with
      | [OText n; OAddress _] => Done (OValue (VI Int (if TestMain.found_by_stat (files s) n then 0 else -1)), s)
      | _ => Undefined
      end
    else do vs <- values_of os; do r <- R f vs; Done (OValue (fst r), s)
  end.

Definition method_of (a : texpr) (m : string) (o : object) (os : list object) (s : state) : outcome (object * state) :=
  match o, m, os with
  | OValue (VS Char l), "find", [OText n] => Done (OValue (VI Size (search n l 0)), s)
  | OBuffer b, "open", [OText f; OMode mode] => match a with XName x => open s x b f mode | _ => Undefined end
  | OBuffer b, "close", [] =>
    match a with XName x => Done (OValue VVoid, assign (with_files s (close b (files s))) x (OBuffer Closed)) | _ => Undefined end
  | OValue v, _, _ =>
    do vs <- values_of os; do r <- method I m v vs;
    Done (OValue (fst r), match a with XName x => assign s x (OValue (snd r)) | _ => s end)
  | _, _, _ => Undefined
  end.

Definition is_true (o : object) : outcome bool := do v <- value_of o; truth v.

Definition binary (o : binop) (p q : object) (s : state) : outcome (object * state) :=
  match o, p, q with
  | Shl, (OErrors | OOutput _), _ => do l <- shown q; do s <- write s p l; Done (p, s)
  | BOr, OMode l, OMode l' => Done (OMode (l ++ l'), s)
  | _, OValue v, OValue w => do r <- bin I o v w; Done (OValue r, s)
  | _, _, _ => Undefined
  end.

Fixpoint teval (x : texpr) (s : state) {struct x} : outcome (object * state) :=
  match x with
  | XInt z => Done (OValue (VI (literal_type false z) z), s)
  | XChar z => Done (OValue (VI Char (norm I Char z)), s)
  | XText l => Done (OText l, s)
  | XBool b => Done (OValue (VB b), s)
  | XName x => do o <- name_value (vars s) x; Done (o, s)
  | XNpos => Done (OValue (VI Size npos), s)
  | XNot a => do (o, s) <- teval a s; do b <- is_true o; Done (OValue (VB (negb b)), s)
  | XAnd a b =>
    do (o, s) <- teval a s; do c <- is_true o;
    if c then (do (p, s) <- teval b s; do d <- is_true p; Done (OValue (VB d), s)) else Done (OValue (VB false), s)
  | XOr a b =>
    do (o, s) <- teval a s; do c <- is_true o;
    if c then Done (OValue (VB true), s) else (do (p, s) <- teval b s; do d <- is_true p; Done (OValue (VB d), s))
  | XBin o a b => do (p, s) <- teval a s; do (q, s) <- teval b s; binary o p q s
  | XRem a b =>
    do (p, s) <- teval a s; do (q, s) <- teval b s;
    do v <- value_of p; do w <- value_of q; do j <- int_of v; do k <- int_of w;
    do r <- remainder I (fst j) (snd j) (fst k) (snd k); Done (OValue r, s)
  | XAddress x => match tlook (vars s) x with Some _ => Done (OAddress x, s) | None => Undefined end
  | XIndex a i =>
    do (p, s) <- teval a s; do (q, s) <- teval i s; do k <- value_of q;
    match p with
    | OValue v => do r <- index_of I v k; Done (OValue r, s)
    | OArguments l => do j <- int_of k; do r <- element l (snd j); Done (OText r, s)
    | _ => Undefined
    end
  | XCall f args =>
    do (os, s) <- (fix tevals (l : list texpr) (s : state) : outcome (list object * state) :=
                     match l with
                     | [] => Done ([], s)
                     | a :: l' => do (o, s) <- teval a s; do (os, s) <- tevals l' s; Done (o :: os, s)
                     end) args s;
    call_of f args os s
  | XMeth a m args =>
    do (o, s) <- teval a s;
    do (os, s) <- (fix tevals (l : list texpr) (s : state) : outcome (list object * state) :=
                     match l with
                     | [] => Done ([], s)
                     | a :: l' => do (o, s) <- teval a s; do (os, s) <- tevals l' s; Done (o :: os, s)
                     end) args s;
    method_of a m o os s
  | XAssign x a =>
    do (o, s) <- teval a s;
    match tlook (vars s) x with
    | Some p => if assignable p o then Done (o, assign s x o) else Undefined
    | None => Undefined
    end
  | XPreInc x =>
    match tlook (vars s) x with
    | Some (OValue v) => do w <- increment I v; Done (OValue w, assign s x (OValue w))
    | _ => Undefined
    end
  end.

Definition holds_true (c : texpr) (s : state) : outcome (bool * state) :=
  do (o, s) <- teval c s; do b <- is_true o; Done (b, s).

(* ---------------------------------------------------------------- statements *)

Inductive tending := Onwards | Continued | Left (o : object).

(* T x; *)
Definition initial (t : string) : outcome object :=
  if String.eqb t "string" then Done (OValue (VS Char []))
  else if String.eqb t "filebuf" then Done (OBuffer Closed)
  else if String.eqb t "stat" then Done OStat
  else Undefined.

(* T x = v; *)
Definition initialised_by (t : string) (o : object) : outcome object :=
  if String.eqb t "auto" then Done o
  else if String.eqb t "int" then do v <- value_of o; do w <- convert I None (TI Int) v; Done (OValue w)
  else if String.eqb t "bool" then do v <- value_of o; do w <- convert I None (TI Bool) v; Done (OValue w)
  else Undefined.

Fixpoint rounds_of (fuel : nat) (cond : state -> outcome (bool * state)) (body : state -> outcome (tending * state)) (s : state)
  : outcome (tending * state) :=
  match fuel with
  | O => OutOfFuel
  | S fuel =>
    do (b, s) <- cond s;
    if b then
      do (r, s) <- body s;
      match r with
      | Onwards | Continued => rounds_of fuel cond body s
      | Left o => Done (Left o, s)
      end
    else Done (Onwards, s)
  end.

Definition in_block (f : state -> outcome (tending * state)) (s : state) : outcome (tending * state) :=
  do (r, s') <- f s; Done (r, tleave s s').

Fixpoint texec (fuel : nat) (y : tstmt) (s : state) {struct y} : outcome (tending * state) :=
  match y with
  | YSkip => Done (Onwards, s)
  | YExpr a => do (_, s) <- teval a s; Done (Onwards, s)
  | YDecl t x None => do o <- initial t; Done (Onwards, declare s x o)
  | YDecl t x (Some a) => do (o, s) <- teval a s; do o <- initialised_by t o; Done (Onwards, declare s x o)
  | YNew t x args =>
    match args with
    | [XAddress b] =>
      if String.eqb t "istream" then Done (Onwards, declare s x (OInput b true))
      else if String.eqb t "ostream" then Done (Onwards, declare s x (OOutput b))
      else Undefined
    | _ => Undefined
    end
  | YSeq a b => do (r, s) <- texec fuel a s; match r with Onwards => texec fuel b s | _ => Done (r, s) end
  | YBlock a => in_block (texec fuel a) s
  | YIf c a b => do (d, s) <- holds_true c s; if d then in_block (texec fuel a) s else in_block (texec fuel b) s
  | YWhile c a => rounds_of fuel (holds_true c) (in_block (texec fuel a)) s
  | YContinue => Done (Continued, s)
  | YReturn a => do (o, s) <- teval a s; Done (Left o, s)
  | YTry a _ => in_block (texec fuel a) s
  end.

End Execution.

(* ---------------------------------------------------------------- functions *)

Fixpoint bind_objects (ps : list (string * bool)) (os : list object) : option tenv :=
  match ps, os with
  | [], [] => Some []
  | (x, _) :: ps', o :: os' => match bind_objects ps' os' with Some e => Some ((x, o) :: e) | None => None end
  | _, _ => None
  end.

Fixpoint references (ps : list (string * bool)) (e : tenv) : list (option object) :=
  match ps with [] => [] | (x, ref) :: ps' => (if ref then tlook e x else None) :: references ps' e end.

(* calls of the functions of the program nested at most [depth] deep, each loop at most [fuel] rounds *)
Fixpoint own (I : implementation) (R : calls) (P : list tfun) (fuel depth : nat) : own_calls :=
  fun f os s =>
  match List.find (fun d => String.eqb (t_name d) f) P with
  | None => None
  | Some d =>
    Some
      match depth with
      | O => OutOfFuel
      | S depth =>
        match bind_objects (t_params d) os with
        | Some e =>
          do (r, s') <- texec I R (own I R P fuel depth) fuel (t_body d) (with_vars s e);
          let s' := tleave (with_vars s e) s' in
          let outs := references (t_params d) (vars s') in
          match r with
          | Left o => Done (Some o, outs, s')
          | _ => Done (None, outs, s')
          end
        | None => Undefined
        end
      end
  end.
