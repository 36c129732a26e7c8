(* What the syntax of Syntax.v means.  References: the C++ standard (C++11 to C++17 agree on all of this).

   Simplifications
   - A reference parameter is copied in and copied out.  This is the same as sharing the object, as no
     object is passed to one call twice or reached in another way while the call runs.
   - A CharacterAdder is another name of the string it adds to (string_internal.hxx:94-105).
   - Comparing or subtracting pointers into different arrays does not occur and is not detected.
   - Arguments are evaluated from left to right (no argument has a side effect).
   - Allocation never fails. *)
From Coq Require Import ZArith List Bool String.
From Verif Require Import Machine.
From Verif.Cxx Require Import Syntax.
Import ListNotations.
Local Open Scope string_scope.
Local Open Scope list_scope.
Local Open Scope Z_scope.

(* What the standard leaves to the implementation, and how strict we are:
   [char_signed]     is char signed?
   [pointer_checks]  is forming a pointer outside its array (and one past its end) undefined, as the
                     standard says, or harmless until it is read, as on all usual machines?
   [configured]      what the preprocessor sees: WCHAR_MAX (0x7fffffff for Wchar32, 0xffff for the others)
                     and which of WIN32, _MBCS and _UNICODE are defined *)
Inductive configuration := Wchar32 | Wchar16 | Win32 | Win32_mbcs | Win32_unicode.
Record implementation := { char_signed : bool; pointer_checks : bool; configured : configuration }.

Inductive pointer := PNull | PAt (array : list Z) (offset : Z).

(* Arrays and strings hold bit patterns: 0..2^width-1 for each type. *)
Inductive value :=
| VB (b : bool)
| VI (t : ity) (z : Z)
| VP (t : ity) (p : pointer)
| VNullptr
| VA (t : ity) (l : list Z)                 (* array *)
| VS (t : ity) (l : list Z)                 (* basic_string<t> *)
| VPred (mask value : Z)                    (* EncodingCheckPredicate: m_mask, m_value *)
| VVec (t : ity) (l : list (list Z))        (* vector<basic_string<t>> *)
| VList (l : list Z)                        (* list<size_type> *)
| VIter (l : list Z) (n : Z)                (* iterator: list and position *)
| VFun (f : string)
| VVoid
| VUnset.                                   (* not initialised *)

(* ---------------------------------------------------------------- integers *)

Definition width (t : ity) : Z :=
  match t with Bool => 1 | Char | UChar => 8 | Char16 | WChar16 => 16 | Char32 | Int | UInt | Enum | WChar32 => 32 | Size | Long => 64 end.

Definition bytes (t : ity) : Z :=
  match t with Bool | Char | UChar => 1 | Char16 | WChar16 => 2 | Char32 | Int | UInt | Enum | WChar32 => 4 | Size | Long => 8 end.

Definition is_signed (I : implementation) (t : ity) : bool :=
  match t with Char => char_signed I | Int | Long | Enum | WChar32 => true | _ => false end.

Definition bits (t : ity) (z : Z) : Z := z mod 2 ^ width t.

(* [conv.integral] *)
Definition norm (I : implementation) (t : ity) (z : Z) : Z :=
  if is_signed I t then (z + 2 ^ (width t - 1)) mod 2 ^ width t - 2 ^ (width t - 1) else z mod 2 ^ width t.

Definition fits (I : implementation) (t : ity) (z : Z) : bool :=
  if is_signed I t then (- 2 ^ (width t - 1) <=? z) && (z <? 2 ^ (width t - 1)) else (0 <=? z) && (z <? 2 ^ width t).

(* [conv.prom] *)
Definition promote (t : ity) : ity :=
  match t with Bool | Char | UChar | Char16 | WChar16 | WChar32 | Enum => Int | Char32 => UInt | t => t end.

(* usual arithmetic conversions, [expr] *)
Definition common (a b : ity) : ity :=
  match promote a, promote b with
  | Size, _ | _, Size => Size
  | Long, _ | _, Long => Long
  | UInt, _ | _, UInt => UInt
  | _, _ => Int
  end.

(* the result of an arithmetic operation: signed overflow is undefined, unsigned wraps *)
Definition result (I : implementation) (t : ity) (z : Z) : outcome value :=
  if is_signed I t then (if fits I t z then Done (VI t z) else Undefined) else Done (VI t (norm I t z)).

Definition int_of (v : value) : outcome (ity * Z) :=
  match v with
  | VB b => Done (Bool, if b then 1 else 0)
  | VI t z => Done (t, z)
  | _ => Undefined
  end.

(* the type of an integer literal, [lex.icon] *)
Definition literal_type (hex : bool) (z : Z) : ity :=
  match z ?= 0x80000000 with
  | Datatypes.Lt => Int
  | _ => if hex then (match z ?= 0x100000000 with Datatypes.Lt => UInt | _ => Long end) else Long
  end.

(* [expr.shift], t the promoted type of the left operand; C++11 (CWG1457): 2^b * a must fit the unsigned type *)
Definition shift_left (I : implementation) (t : ity) (a b : Z) : outcome value :=
  if (b <? 0) || (width t <=? b) then Undefined
  else if is_signed I t && ((a <? 0) || (2 ^ width t <=? Z.shiftl a b)) then Undefined
  else Done (VI t (norm I t (Z.shiftl a b))).
Definition shift_right (I : implementation) (t : ity) (a b : Z) : outcome value :=
  if (b <? 0) || (width t <=? b) then Undefined else Done (VI t (Z.shiftr a b)).

Definition int_bin (I : implementation) (o : binop) (ta : ity) (a : Z) (tb : ity) (b : Z) : outcome value :=
  let t := common ta tb in
  let x := norm I t a in
  let y := norm I t b in
  match o with
  | Add => result I t (x + y)
  | Sub => result I t (x - y)
  | Mul => result I t (x * y)
  | BAnd => Done (VI t (Z.land x y))
  | BOr => Done (VI t (Z.lor x y))
  | BXor => Done (VI t (Z.lxor x y))
  | Lt => Done (VB (x <? y))
  | Le => Done (VB (x <=? y))
  | Gt => Done (VB (x >? y))
  | Ge => Done (VB (x >=? y))
  | Eq => Done (VB (x =? y))
  | Ne => Done (VB (negb (x =? y)))
  | Shl => let t := promote ta in shift_left I t (norm I t a) b
  | Shr => let t := promote ta in shift_right I t (norm I t a) b
  end.

(* ---------------------------------------------------------------- pointers *)

Definition size {A} (l : list A) : Z := Z.of_nat (List.length l).

Definition advance (I : implementation) (p : pointer) (k : Z) : outcome pointer :=
  match p with
  | PNull => Undefined
  | PAt a o =>
    if pointer_checks I && negb ((0 <=? o + k) && (o + k <=? size a)) then Undefined else Done (PAt a (o + k))
  end.

Definition element {A} (l : list A) (i : Z) : outcome A :=
  if i <? 0 then Undefined
  else match nth_error l (Z.to_nat i) with Some x => Done x | None => Undefined end.

Definition load (I : implementation) (t : ity) (p : pointer) : outcome value :=
  match p with
  | PNull => Undefined
  | PAt a o => do x <- element a o; Done (VI t (norm I t x))
  end.

(* the characters up to the first zero *)
Fixpoint until_zero (l : list Z) : outcome (list Z) :=
  match l with
  | [] => Undefined
  | x :: l' => if x =? 0 then Done [] else do r <- until_zero l'; Done (x :: r)
  end.

Definition c_string (p : pointer) : outcome (list Z) :=
  match p with
  | PNull => Undefined
  | PAt a o => if o <? 0 then Undefined else until_zero (skipn (Z.to_nat o) a)
  end.

(* ---------------------------------------------------------------- operators on values *)

Definition ity_eqb (a b : ity) : bool :=
  match a, b with
  | Bool, Bool | Char, Char | UChar, UChar | Char16, Char16 | Char32, Char32
  | Int, Int | UInt, UInt | Size, Size | Long, Long | Enum, Enum | WChar16, WChar16 | WChar32, WChar32 => true
  | _, _ => false
  end.

Definition bin (I : implementation) (o : binop) (v w : value) : outcome value :=
  match v, w with
  | VP t p, VP _ q =>
    match o, p, q with
    | Eq, PNull, PNull => Done (VB true)
    | Eq, PAt _ a, PAt _ b => Done (VB (a =? b))
    | Eq, _, _ => Done (VB false)
    | Ne, PNull, PNull => Done (VB false)
    | Ne, PAt _ a, PAt _ b => Done (VB (negb (a =? b)))
    | Ne, _, _ => Done (VB true)
    | Sub, PAt _ a, PAt _ b => Done (VI Long (a - b))
    | _, _, _ => Undefined
    end
  | VP t p, VNullptr =>
    match o, p with
    | Eq, PNull => Done (VB true) | Eq, PAt _ _ => Done (VB false)
    | Ne, PNull => Done (VB false) | Ne, PAt _ _ => Done (VB true)
    | _, _ => Undefined
    end
  | VP t p, (VI _ _ | VB _) =>
    do k <- int_of w;
    match o with
    | Add => do q <- advance I p (snd k); Done (VP t q)
    | Sub => do q <- advance I p (- snd k); Done (VP t q)
    | _ => Undefined
    end
  | VIter _ a, VIter _ b =>
    match o with Eq => Done (VB (a =? b)) | Ne => Done (VB (negb (a =? b))) | _ => Undefined end
  | _, _ =>
    do a <- int_of v; do b <- int_of w; int_bin I o (fst a) (snd a) (fst b) (snd b)
  end.

(* [conv.bool] *)
Definition truth (v : value) : outcome bool :=
  match v with
  | VB b => Done b
  | VI _ z => Done (negb (z =? 0))
  | VP _ PNull => Done false
  | VP _ (PAt _ _) => Done true
  | _ => Undefined
  end.

(* conversion to a type: initialisation, static_cast, arguments, return.  [c] is what C stands for *)
Definition convert (I : implementation) (c : option ity) (t : ty) (v : value) : outcome value :=
  let to_int t :=
    match t with
    | Bool => do b <- truth v; Done (VB b)
    | _ => do k <- int_of v; Done (VI t (norm I t (snd k)))
    end in
  match t with
  | TI t => to_int t
  | TC => match c with Some t => to_int t | None => Undefined end
  | TPtr t =>
    match v with
    | VP t' p => if ity_eqb t t' then Done v else Undefined
    | VNullptr => Done (VP t PNull)
    | _ => Undefined
    end
  | TStr t =>
    match v with
    | VS t' l => if ity_eqb t t' then Done v else Undefined
    | VP t' p => if ity_eqb t t' then (do l <- c_string p; Done (VS t l)) else Undefined
    | _ => Undefined
    end
  | TAdder t => match v with VS t' l => if ity_eqb t t' then Done v else Undefined | _ => Undefined end
  | TStrC => match v with VS _ _ => Done v | _ => Undefined end
  | TPred => match v with VPred _ _ => Done v | _ => Undefined end
  | TVec => match v with VVec _ _ => Done v | _ => Undefined end
  | TList => match v with VList _ => Done v | _ => Undefined end
  | TAuto => Done v
  | TVoid => Done VVoid
  end.

(* ---------------------------------------------------------------- variables *)

(* [Alias y]: another name of y; [TypeIs t]: C stands for t *)
Inductive binding := Var (v : value) | Alias (y : string) | TypeIs (t : ity).
Definition env := list (string * binding).

Fixpoint look (e : env) (x : string) : option binding :=
  match e with
  | [] => None
  | (y, b) :: e' => if String.eqb x y then Some b else look e' x
  end.

Definition name_of (e : env) (x : string) : string := match look e x with Some (Alias y) => y | _ => x end.

Fixpoint put (e : env) (x : string) (v : value) : env :=
  match e with
  | [] => []
  | (y, b) :: e' => if String.eqb x y then (y, Var v) :: e' else (y, b) :: put e' x v
  end.

Definition set (e : env) (x : string) (v : value) : env := put e (name_of e x) v.

Definition type_c (e : env) : option ity := match look e "C" with Some (TypeIs t) => Some t | _ => None end.

(* leaving a block: the variables declared in it are gone *)
Fixpoint names (e : env) : nat := match e with [] => O | _ :: e' => S (names e') end.
Fixpoint drop (n : nat) (e : env) : env :=
  match n, e with S n', _ :: e' => drop n' e' | _, _ => e end.
Definition leave (outer inner : env) : env := drop (names inner - names outer) inner.

Fixpoint both (a b : env) : env := match a with [] => b | x :: a' => x :: both a' b end.

(* ---------------------------------------------------------------- library classes *)

(* the bit pattern of a character argument *)
Definition character (t : ity) (v : value) : outcome Z :=
  do k <- int_of v; Done (bits t (snd k)).

(* the position of the first c at or after the position n *)
Fixpoint position (l : list Z) (c : Z) (n : Z) : Z :=
  match l with
  | [] => -1
  | x :: l' => if x =? c then n else position l' c (n + 1)
  end.
Definition npos : Z := 2 ^ 64 - 1.
Definition find (l : list Z) (c from : Z) : Z :=
  let k := position (skipn (Z.to_nat from) l) c from in if k <? 0 then npos else k.

Definition piece (l : list Z) (from n : Z) : list Z := firstn (Z.to_nat n) (skipn (Z.to_nat from) l).

Definition characters (v : value) : outcome (list Z) :=
  match v with
  | VS _ l => Done l
  | VP _ p => c_string p
  | VA _ l => until_zero l
  | _ => Undefined
  end.

(* a member function: what it returns and the object afterwards *)
Definition method (I : implementation) (m : string) (obj : value) (args : list value) : outcome (value * value) :=
  match obj, m, args with
  | VS t l, "c_str", [] => Done (VP t (PAt (l ++ [0]) 0), obj)
  | VS t l, "empty", [] => Done (VB (match l with [] => true | _ => false end), obj)
  | VS t l, "size", [] => Done (VI Size (size l), obj)
  | VS t l, "push_back", [v] => do c <- character t v; Done (VVoid, VS t (l ++ [c]))
  | VS t l, "append", [v] => do s <- characters v; Done (VVoid, VS t (l ++ s))
  | VS t l, "erase", [v] =>
    do k <- int_of v;
    if (snd k <? 0) || (size l <? snd k) then Undefined else Done (VVoid, VS t (firstn (Z.to_nat (snd k)) l))
  | VS t l, "erase", [v; w] =>
    do k <- int_of v; do n <- int_of w;
    if (snd k <? 0) || (size l <? snd k) || (snd n <? 0) then Undefined
    else Done (VVoid, VS t (firstn (Z.to_nat (snd k)) l ++ skipn (Z.to_nat (snd k + snd n)) l))
  | VS t l, "find", [v] => do c <- character t v; Done (VI Size (find l c 0), obj)
  | VS t l, "find", [v; w] => do c <- character t v; do k <- int_of w; Done (VI Size (find l c (snd k)), obj)
  | VS t l, "find_first_of", [v] => do c <- character t v; Done (VI Size (find l c 0), obj)
  | VS t l, "substr", [v] =>
    do k <- int_of v;
    if (snd k <? 0) || (size l <? snd k) then Undefined else Done (VS t (skipn (Z.to_nat (snd k)) l), obj)
  | VS t l, "substr", [v; w] =>
    do k <- int_of v; do n <- int_of w;
    if (snd k <? 0) || (size l <? snd k) || (snd n <? 0) then Undefined
    else Done (VS t (piece l (snd k) (snd n)), obj)
  | VVec t l, "empty", [] => Done (VB (match l with [] => true | _ => false end), obj)
  | VVec t l, "push_back", [VS _ s] => Done (VVoid, VVec t (l ++ [s]))
  | VList l, "push_back", [v] => do k <- int_of v; Done (VVoid, VList (l ++ [snd k]))
  | VList l, "size", [] => Done (VI Size (size l), obj)
  | VList l, "begin", [] => Done (VIter l 0, obj)
  | VList l, "end", [] => Done (VIter l (size l), obj)
  | _, _, _ => Undefined
  end.

(* e[i] *)
Definition index_of (I : implementation) (v i : value) : outcome value :=
  do k <- int_of i;
  match v with
  | VP t p => do q <- advance I p (snd k); load I t q
  | VA t l => do x <- element l (snd k); Done (VI t (norm I t x))
  | VS t l =>                                (* s[s.size()] is the terminating zero *)
    do x <- element (l ++ [0]) (snd k); Done (VI t (norm I t x))
  | VVec t l => do s <- element l (snd k); Done (VS t s)
  | _ => Undefined
  end.

Fixpoint replace {A} (l : list A) (n : nat) (x : A) : list A :=
  match l, n with
  | [], _ => []
  | _ :: l', O => x :: l'
  | y :: l', S n' => y :: replace l' n' x
  end.

(* v[i] = w *)
Definition set_index (I : implementation) (v i w : value) : outcome value :=
  do k <- int_of i;
  match v, w with
  | VA t l, _ =>
    do c <- character t w; do _ <- element l (snd k); Done (VA t (replace l (Z.to_nat (snd k)) c))
  | VVec t l, VS _ s => do _ <- element l (snd k); Done (VVec t (replace l (Z.to_nat (snd k)) s))
  | _, _ => Undefined
  end.

(* T(args), T x(args); the element type of an object of type basic_string<C> is what C stands for *)
Definition construct (I : implementation) (c : option ity) (t : ty) (args : list value) : outcome value :=
  match t, args with
  | TStr t, [] => Done (VS t [])
  | TStr t, [VS t' l] => if ity_eqb t t' then Done (VS t l) else Undefined
  | TStr t, [VP t' p] => if ity_eqb t t' then (do l <- c_string p; Done (VS t l)) else Undefined
  | TStr t, [VA t' l] => if ity_eqb t t' then (do l <- until_zero l; Done (VS t l)) else Undefined
  | TStrC, [] => match c with Some t => Done (VS t []) | None => Undefined end
  | TVec, [] => match c with Some t => Done (VVec t []) | None => Undefined end
  | TVec, [v] =>
    match c with
    | Some t => do n <- int_of v; Done (VVec t (repeat [] (Z.to_nat (snd n))))
    | None => Undefined
    end
  | TList, [] => Done (VList [])
  | TPred, [] => Done (VPred 0 0)
  | _, _ => Undefined
  end.

Definition field (v : value) (f : string) : outcome value :=
  match v, f with
  | VPred m w, "m_mask" => Done (VI UInt m)
  | VPred m w, "m_value" => Done (VI UInt w)
  | _, _ => Undefined
  end.

Definition set_field (I : implementation) (v : value) (f : string) (w : value) : outcome value :=
  do k <- int_of w;
  match v, f with
  | VPred m x, "m_mask" => Done (VPred (norm I UInt (snd k)) x)
  | VPred m x, "m_value" => Done (VPred m (norm I UInt (snd k)))
  | _, _ => Undefined
  end.

(* ++ on a value *)
Definition increment (I : implementation) (v : value) : outcome value :=
  match v with
  | VI t z => do k <- (do w <- int_bin I Add t z Int 1; int_of w); Done (VI t (norm I t (snd k)))
  | VP t p => do q <- advance I p 1; Done (VP t q)
  | VIter l n => if n <? size l then Done (VIter l (n + 1)) else Undefined
  | _ => Undefined
  end.

(* c ? a : b, the type of the result *)
Definition both_int (I : implementation) (v w : value) : outcome value :=
  match v, w with
  | VI t z, VI t' _ => if ity_eqb t t' then Done v else let t := common t t' in Done (VI t (norm I t z))
  | _, _ => Done v
  end.

(* ---------------------------------------------------------------- expressions *)

(* a call: the result, and for each argument the object afterwards if it was passed by reference *)
Definition calls := string -> list value -> outcome (value * list (option value)).

Fixpoint write_back (e : env) (args : list expr) (outs : list (option value)) : env :=
  match args, outs with
  | EVar x :: args', Some v :: outs' => write_back (set e x v) args' outs'
  | _ :: args', _ :: outs' => write_back e args' outs'
  | _, _ => e
  end.

Fixpoint global (g : list (string * value)) (x : string) : option value :=
  match g with
  | [] => None
  | (y, v) :: g' => if String.eqb x y then Some v else global g' x
  end.

Definition read (G : list (string * value)) (e : env) (x : string) : outcome value :=
  match look e (name_of e x) with
  | Some (Var VUnset) => Undefined
  | Some (Var v) => Done v
  | Some _ => Undefined
  | None => match global G x with Some v => Done v | None => Done (VFun x) end
  end.

(* f(args): f a CharacterAdder, an EncodingCheckPredicate, a pointer to function or a function *)
Definition apply (I : implementation) (R : calls) (e : env) (f : string) (args : list expr) (vs : list value)
  : outcome (value * env) :=
  match look e (name_of e f), vs with
  | Some (Var (VS t l)), [v] => do c <- character t v; Done (VVoid, set e f (VS t (l ++ [c])))
  | Some (Var (VPred m w)), _ => do r <- R "EncodingCheckPredicate::operator()" (VPred m w :: vs); Done (fst r, e)
  | Some (Var (VFun g)), _ => do r <- R g vs; Done (fst r, e)
  | None, _ => do r <- R f vs; Done (fst r, write_back e args (snd r))
  | _, _ => Undefined
  end.

Section Expressions.
Context (I : implementation) (R : calls) (G : list (string * value)).

Fixpoint eval (x : expr) (e : env) {struct x} : outcome (value * env) :=
  match x with
  | ELit hex z => Done (VI (literal_type hex z) z, e)
  | EChr z => Done (VI Char (norm I Char z), e)
  | EText t l => Done (VA t (l ++ [0]), e)
  | EBool b => Done (VB b, e)
  | ENull => Done (VNullptr, e)
  | EVar x => do v <- read G e x; Done (v, e)
  | ENot a => do (v, e) <- eval a e; do b <- truth v; Done (VB (negb b), e)
  | ECompl a =>
    do (v, e) <- eval a e; do k <- int_of v;
    let t := promote (fst k) in Done (VI t (norm I t (Z.lnot (norm I t (snd k)))), e)
  | ENeg a =>
    do (v, e) <- eval a e; do k <- int_of v;
    let t := promote (fst k) in do r <- result I t (- norm I t (snd k)); Done (r, e)
  | EBin o a b =>
    do (v, e) <- eval a e; do (w, e) <- eval b e;
    match v, w, o with
    | VPred m x, VPred m' x', Eq =>
      do r <- R "EncodingCheckPredicate::operator==" [VPred m x; VPred m' x']; Done (fst r, e)
    | _, _, _ => do r <- bin I o v w; Done (r, e)
    end
  | EAnd a b =>
    do (v, e) <- eval a e; do c <- truth v;
    if c then (do (w, e) <- eval b e; do d <- truth w; Done (VB d, e)) else Done (VB false, e)
  | EOr a b =>
    do (v, e) <- eval a e; do c <- truth v;
    if c then Done (VB true, e) else (do (w, e) <- eval b e; do d <- truth w; Done (VB d, e))
  | ECond c a b =>                           (* the operand not chosen has no side effect and is only asked for its type *)
    do (v, e) <- eval c e; do d <- truth v;
    if d
    then (do (v, e) <- eval a e;
          match eval b e with Done (w, _) => do r <- both_int I v w; Done (r, e) | Undefined => Done (v, e) | OutOfFuel => OutOfFuel end)
    else (do (w, e) <- eval b e;
          match eval a e with Done (v, _) => do r <- both_int I w v; Done (r, e) | Undefined => Done (w, e) | OutOfFuel => OutOfFuel end)
  | EDeref a =>
    do (v, e) <- eval a e;
    match v with
    | VP t p => do r <- load I t p; Done (r, e)
    | VIter l n => do r <- element l n; Done (VI Size r, e)
    | _ => Undefined
    end
  | EIndex a i =>
    do (v, e) <- eval a e; do (k, e) <- eval i e; do r <- index_of I v k; Done (r, e)
  | EField x f => do v <- read G e x; do r <- field v f; Done (r, e)
  | ESameObject x y => Done (VB (String.eqb x y), e)
  | ESizeof => match type_c e with Some t => Done (VI Size (bytes t), e) | None => Undefined end
  | ENpos => Done (VI Size npos, e)
  | ECast t a => do (v, e) <- eval a e; do r <- convert I (type_c e) t v; Done (r, e)
  | EReinterpret t a =>                      (* the same bits, read as another type of the same width *)
    do (v, e) <- eval a e;
    match v with
    | VP t' p => if width t =? width t' then Done (VP t p, e) else Undefined
    | _ => Undefined
    end
  | EPreInc x => do v <- read G e x; do w <- increment I v; Done (w, set e x w)
  | EPostInc x => do v <- read G e x; do w <- increment I v; Done (v, set e x w)
  | EAssign x a =>                           (* the type of x stays *)
    do (v, e) <- eval a e;
    match look e (name_of e x), v with
    | Some (Var (VI t _)), (VI _ _ | VB _) => do w <- convert I None (TI t) v; Done (w, set e x w)
    | Some (Var (VB _)), (VI _ _ | VB _ | VP _ _) => do w <- convert I None (TI Bool) v; Done (w, set e x w)
    | Some (Var (VP t _)), (VP _ _ | VNullptr) => do w <- convert I None (TPtr t) v; Done (w, set e x w)
    | Some (Var (VS t _)), VS t' _ => do w <- convert I None (TStr t) v; Done (w, set e x w)
    | Some (Var VUnset), _ => Done (v, set e x v)
    | _, _ => Undefined
    end
  | EOpAssign o x a =>
    do (w, e) <- eval a e; do v <- read G e x; do r <- bin I o v w;
    match v with
    | VI t _ => do r <- convert I None (TI t) r; Done (r, set e x r)
    | _ => Undefined
    end
  | EAssignField x f a =>
    do (w, e) <- eval a e; do v <- read G e x; do r <- set_field I v f w; do u <- field r f; Done (u, set e x r)
  | EOpAssignField o x f a =>
    do (w, e) <- eval a e; do v <- read G e x; do u <- field v f;
    do s <- bin I o u w; do r <- set_field I v f s; do u <- field r f; Done (u, set e x r)
  | EAssignIndex x i a =>
    do (w, e) <- eval a e; do (k, e) <- eval i e; do v <- read G e x; do r <- set_index I v k w; Done (w, set e x r)
  | ECall f args =>
    do (vs, e) <- (fix evals (l : list expr) (e : env) : outcome (list value * env) :=
                     match l with
                     | [] => Done ([], e)
                     | a :: l' => do (v, e) <- eval a e; do (vs, e) <- evals l' e; Done (v :: vs, e)
                     end) args e;
    apply I R e f args vs
  | EMeth a m args =>
    do (v, e) <- eval a e;
    do (vs, e) <- (fix evals (l : list expr) (e : env) : outcome (list value * env) :=
                     match l with
                     | [] => Done ([], e)
                     | a :: l' => do (v, e) <- eval a e; do (vs, e) <- evals l' e; Done (v :: vs, e)
                     end) args e;
    do r <- method I m v vs;
    Done (fst r, match a with EVar x => set e x (snd r) | _ => e end)
  | ENew t args =>
    do (vs, e) <- (fix evals (l : list expr) (e : env) : outcome (list value * env) :=
                     match l with
                     | [] => Done ([], e)
                     | a :: l' => do (v, e) <- eval a e; do (vs, e) <- evals l' e; Done (v :: vs, e)
                     end) args e;
    match t, vs with
    | TPred, _ :: _ => do r <- R "EncodingCheckPredicate::EncodingCheckPredicate" (VPred 0 0 :: vs); Done (fst r, e)
    | _, _ => do r <- construct I (type_c e) t vs; Done (r, e)
    end
  end.

Fixpoint evals (l : list expr) (e : env) : outcome (list value * env) :=
  match l with
  | [] => Done ([], e)
  | a :: l' => do (v, e) <- eval a e; do (vs, e) <- evals l' e; Done (v :: vs, e)
  end.

(* ---------------------------------------------------------------- statements *)

(* how a statement ends *)
Inductive ending := Next | Broken | Returned (v : value).

Definition condition (c : expr) (e : env) : outcome (bool * env) :=
  do (v, e) <- eval c e; do b <- truth v; Done (b, e).

(* while (cond) { body; step }, [fuel] rounds at most *)
Fixpoint loop (fuel : nat) (cond : env -> outcome (bool * env)) (body step : env -> outcome (ending * env)) (e : env)
  : outcome (ending * env) :=
  match fuel with
  | O => OutOfFuel
  | S fuel =>
    do (b, e) <- cond e;
    if b then
      do (r, e) <- body e;
      match r with
      | Next => do (_, e) <- step e; loop fuel cond body step e
      | Broken => Done (Next, e)
      | Returned v => Done (Returned v, e)
      end
    else Done (Next, e)
  end.

Definition scoped (f : env -> outcome (ending * env)) (e : env) : outcome (ending * env) :=
  do (r, e') <- f e; Done (r, leave e e').

Definition steps (l : list expr) (e : env) : outcome (ending * env) := do (_, e) <- evals l e; Done (Next, e).

(* the elements a range-based for visits *)
Definition elements (v : value) : outcome (list value) :=
  match v with
  | VS t l => Done (map (fun x => VI t (norm I t x)) l)
  | VVec t l => Done (map (VS t) l)
  | _ => Undefined
  end.

Fixpoint each (x : string) (l : list value) (body : env -> outcome (ending * env)) (e : env) : outcome (ending * env) :=
  match l with
  | [] => Done (Next, e)
  | v :: l' =>
    do (r, e') <- body ((x, Var v) :: e);
    let e := leave e e' in
    match r with
    | Next => each x l' body e
    | Broken => Done (Next, e)
    | Returned v => Done (Returned v, e)
    end
  end.

(* [stmt.switch]: is k one of the labels; is default among them; the position of the labels to jump to *)
Definition labelled (t : ity) (k : Z) (l : list (option Z)) : bool :=
  existsb (fun x => match x with Some z => norm I t z =? k | None => false end) l.
Definition is_default (l : list (option Z)) : bool := existsb (fun x => match x with Some _ => false | None => true end) l.
Fixpoint target (p : list (option Z) -> bool) (s : stmt) : option nat :=
  match s with
  | SCase l _ s => if p l then Some O else match target p s with Some n => Some (S n) | None => None end
  | _ => None
  end.
Definition jump (t : ity) (k : Z) (s : stmt) : option nat :=
  match target (labelled t k) s with Some n => Some n | None => target is_default s end.

Fixpoint exec (fuel : nat) (s : stmt) (e : env) {struct s} : outcome (ending * env) :=
  match s with
  | SSkip => Done (Next, e)
  | SExpr a => do (_, e) <- eval a e; Done (Next, e)
  | SDecl t x None =>
    match t with
    | TStr _ | TStrC | TVec | TList | TPred =>
      do v <- construct I (type_c e) t []; Done (Next, (x, Var v) :: e)
    | _ => Done (Next, (x, Var VUnset) :: e)
    end
  | SDecl t x (Some a) => do (v, e) <- eval a e; do w <- convert I (type_c e) t v; Done (Next, (x, Var w) :: e)
  | SDeclArray t x n l =>
    do (vs, e) <- evals l e;
    match (match t with TI t => Some t | TC => type_c e | _ => None end) with
    | Some t =>
      do cs <- (fix go (vs : list value) : outcome (list Z) :=
                  match vs with
                  | [] => Done []
                  | v :: vs' => do c <- character t v; do cs <- go vs'; Done (c :: cs)
                  end) vs;
      let n := match n with Some n => n | None => size cs end in
      Done (Next, (x, Var (VA t (cs ++ repeat 0 (Z.to_nat n - List.length cs)%nat))) :: e)
    | None => Undefined
    end
  | SDeclNew t x args =>
    do (v, e) <- eval (ENew t args) e; Done (Next, (x, Var v) :: e)
  | SAlias x y => Done (Next, (x, Alias y) :: e)
  | SSeq a b =>
    do (r, e) <- exec fuel a e;
    match r with Next => exec fuel b e | _ => Done (r, e) end
  | SBlock a => scoped (exec fuel a) e
  | SIf c a b => do (d, e) <- condition c e; if d then scoped (exec fuel a) e else scoped (exec fuel b) e
  | SFor i c n a =>
    scoped (fun e => do (_, e) <- exec fuel i e; loop fuel (condition c) (scoped (exec fuel a)) (steps n) e) e
  | SWhile c a => loop fuel (condition c) (scoped (exec fuel a)) (steps []) e
  | SDo a c =>
    do (r, e) <- scoped (exec fuel a) e;
    match r with
    | Next => loop fuel (condition c) (scoped (exec fuel a)) (steps []) e
    | Broken => Done (Next, e)
    | Returned v => Done (Returned v, e)
    end
  | SEach x a b =>
    do (v, e) <- eval a e; do l <- elements v; each x l (exec fuel b) e
  | SSwitch x c =>
    do (v, e) <- eval x e; do k <- int_of v;
    let t := promote (fst k) in
    match jump t (norm I t (snd k)) c with
    | None => Done (Next, e)
    | Some n =>
      do (r, e) <- scoped ((fix from (n : nat) (s : stmt) {struct s} : env -> outcome (ending * env) :=
                              match n, s with
                              | S n', SCase _ _ s' => from n' s'
                              | _, _ => exec fuel s
                              end) n c) e;
      Done (match r with Broken => Next | _ => r end, e)
    end
  | SCase _ a c =>
    do (r, e) <- exec fuel a e;
    match r with Next => exec fuel c e | _ => Done (r, e) end
  | SBreak => Done (Broken, e)
  | SReturn None => Done (Returned VVoid, e)
  | SReturn (Some a) => do (v, e) <- eval a e; Done (Returned v, e)
  end.

End Expressions.

(* ---------------------------------------------------------------- functions *)

(* does the argument have the type of the parameter, up to what C stands for? *)
Definition exact (p : param) (v : value) : bool :=
  match p_ty p, v with
  | TI Bool, VB _ => true
  | TI t, VI t' _ => ity_eqb t t'
  | TPtr t, VP t' _ => ity_eqb t t'
  | TStr t, VS t' _ => ity_eqb t t'
  | TAdder t, VS t' _ => ity_eqb t t'
  | TPred, VPred _ _ => true
  | TVec, VVec _ _ => true
  | TC, VI _ _ => true
  | TStrC, VS _ _ => true
  | _, _ => false
  end.

Fixpoint all_exact (ps : list param) (vs : list value) : bool :=
  match ps, vs with
  | p :: ps', v :: vs' => exact p v && all_exact ps' vs'
  | _, _ => true
  end.

Definition arity_ok (ps : list param) (n : nat) : bool :=
  (n <=? List.length ps)%nat &&
  forallb (fun p => match p_default p with Some _ => true | None => false end) (skipn n ps).

Definition is_template (f : fundef) : bool :=
  existsb (fun p => match p_ty p with TC | TStrC | TVec => true | _ => false end) (f_params f).

(* can the argument be converted to a string, or need not be converted? *)
Fixpoint all_viable (ps : list param) (vs : list value) : bool :=
  match ps, vs with
  | p :: ps', v :: vs' =>
    (exact p v || match p_ty p, v with TStr t, VP t' _ => ity_eqb t t' | _, _ => false end) && all_viable ps' vs'
  | _, _ => true
  end.

(* overload resolution ([over.match], as far as needed): a function that takes exactly these types; else a
   template that can; else the only function with the right number of parameters; else the only one of them
   that takes these types with pointers made into strings *)
Definition select (fs : list fundef) (f : string) (vs : list value) : option fundef :=
  let named := filter (fun d => String.eqb (f_name d) f && arity_ok (f_params d) (List.length vs)) fs in
  match filter (fun d => all_exact (f_params d) vs && negb (is_template d)) named with
  | [d] => Some d
  | [] =>
    match filter (fun d => all_exact (f_params d) vs) named with
    | [d] => Some d
    | [] =>
      match named with
      | [d] => Some d
      | _ => match filter (fun d => all_viable (f_params d) vs) named with [d] => Some d | _ => None end
      end
    | _ => None
    end
  | _ => None
  end.

(* what C stands for *)
Fixpoint deduce (ps : list param) (vs : list value) : option ity :=
  match ps, vs with
  | p :: ps', v :: vs' =>
    match p_ty p, v with
    | TC, VI t _ => Some t
    | TStrC, VS t _ => Some t
    | TVec, VVec t _ => Some t
    | _, _ => deduce ps' vs'
    end
  | _, _ => None
  end.

Section Functions.
Context (I : implementation) (G : list (string * value)).

Fixpoint bind_params (R : calls) (c : option ity) (ps : list param) (vs : list value) : outcome env :=
  match ps, vs with
  | [], _ => Done []
  | p :: ps', v :: vs' =>
    do w <- convert I c (p_ty p) v; do e <- bind_params R c ps' vs'; Done ((p_name p, Var w) :: e)
  | p :: ps', [] =>
    match p_default p with
    | Some d =>
      do (v, _) <- eval I R G d []; do w <- convert I c (p_ty p) v;
      do e <- bind_params R c ps' []; Done ((p_name p, Var w) :: e)
    | None => Undefined
    end
  end.

Fixpoint outs (ps : list param) (e : env) : list (option value) :=
  match ps with
  | [] => []
  | p :: ps' =>
    (if p_ref p then match look e (p_name p) with Some (Var v) => Some v | _ => None end else None) :: outs ps' e
  end.

(* calling a function with the functions it may call *)
Definition invoke (R : calls) (fuel : nat) (d : fundef) (vs : list value) : outcome (value * list (option value)) :=
  let c := deduce (f_params d) vs in
  do e <- bind_params R c (f_params d) vs;
  do (r, e) <- exec I R G fuel (f_body d) (both e match c with Some t => [("C", TypeIs t)] | None => [] end);
  do v <- (match r with
           | Returned v => match f_ret d with TVoid => Done VVoid | t => convert I c t v end
           | _ => match f_ret d with TVoid => Done VVoid | _ => Undefined end   (* [stmt.return]: no value returned *)
           end);
  Done (v, outs (f_params d) e).

(* calls nested at most [depth] deep; [ext] gives the functions that are not among [fs] *)
Fixpoint run (ext : string -> list value -> option value) (fs : list fundef) (fuel depth : nat) : calls :=
  fun f vs =>
  match depth with
  | O => OutOfFuel
  | S depth =>
    match ext f vs with
    | Some v => Done (v, map (fun _ => None) vs)
    | None =>
      match select fs f vs with
      | Some d => invoke (run ext fs fuel depth) fuel d vs
      | None => Undefined
      end
    end
  end.
End Functions.

(* enumerators and arrays, evaluated in the order of definition *)
Definition no_calls : calls := fun _ _ => Undefined.

Fixpoint enumerators (I : implementation) (l : list (string * option expr)) (last : Z) (g : list (string * value))
  : list (string * value) :=
  match l with
  | [] => g
  | (x, o) :: l' =>
    let z := match o with
             | Some a => match eval I no_calls g a [] with Done (VI _ z, _) => z | _ => 0 end
             | None => last + 1
             end in
    enumerators I l' z ((x, VI Enum z) :: g)
  end.

Definition array_value (I : implementation) (g : list (string * value)) (l : list expr) : value :=
  VA Enum (map (fun a => match eval I no_calls g a [] with Done (VI _ z, _) => bits Enum z | _ => 0 end) l).

Definition globals (I : implementation) (P : program) : list (string * value) :=
  let g := enumerators I (p_enums P) 0 [] in
  map (fun d => (fst d, array_value I g (snd d))) (p_arrays P) ++ g%list.
