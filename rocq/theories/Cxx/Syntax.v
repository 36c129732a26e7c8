(* Abstract syntax of the part of C++ the library is written in.  tools/cxx2ast.py parses the source
   files into terms of these types (Gen/Source.v); it only parses: types, conversions, overloads and
   the meaning of operators are dealt with in Semantics.v. *)
From Coq Require Import ZArith List String.
Import ListNotations.

(* integer types; Enum is any enumeration (all have the underlying type int), uint32_t is UInt,
   Size is basic_string::size_type, Long is ptrdiff_t, WChar16 and WChar32 are wchar_t *)
Inductive ity := Bool | Char | UChar | Char16 | Char32 | Int | UInt | Size | Long | Enum | WChar16 | WChar32.

Inductive ty :=
| TI (t : ity)
| TPtr (t : ity)                 (* const t* *)
| TStr (t : ity)                 (* basic_string<t> *)
| TAdder (t : ity)               (* CharacterAdder<t> *)
| TPred                          (* EncodingCheckPredicate *)
| TVec                           (* vector<basic_string<C>> *)
| TList                          (* list<size_type> *)
| TC                             (* the template parameter C *)
| TStrC                          (* basic_string<C> *)
| TAuto
| TVoid.

Inductive binop := Add | Sub | Mul | Shl | Shr | BAnd | BOr | BXor | Lt | Le | Gt | Ge | Eq | Ne.

Inductive expr :=
| ELit (hex : bool) (z : Z)                    (* 12, 0xff *)
| EChr (z : Z)                                 (* 'c' *)
| EText (t : ity) (l : list Z)                 (* "...", u"...", U"..." *)
| EBool (b : bool)
| ENull                                        (* nullptr *)
| EVar (x : string)                            (* variable, enumerator or function *)
| ENot (e : expr) | ECompl (e : expr) | ENeg (e : expr)
| EBin (o : binop) (a b : expr)
| EAnd (a b : expr) | EOr (a b : expr)
| ECond (c a b : expr)
| EDeref (e : expr)
| EIndex (e i : expr)
| EField (x f : string)                        (* x.f; x may be "this" *)
| ESameObject (x y : string)                   (* &x == &y *)
| ESizeof                                      (* sizeof(C) *)
| ENpos                                        (* basic_string<C>::npos *)
| ECast (t : ty) (e : expr)
| EReinterpret (t : ity) (e : expr)            (* reinterpret_cast<const t*>(e) *)
| EPreInc (x : string) | EPostInc (x : string)
| EAssign (x : string) (e : expr)
| EOpAssign (o : binop) (x : string) (e : expr)
| EAssignField (x f : string) (e : expr)
| EOpAssignField (o : binop) (x f : string) (e : expr)
| EAssignIndex (x : string) (i e : expr)       (* x[i] = e *)
| ECall (f : string) (args : list expr)
| EMeth (e : expr) (m : string) (args : list expr)
| ENew (t : ty) (args : list expr).            (* T(args) *)

Inductive stmt :=
| SSkip
| SExpr (e : expr)
| SDecl (t : ty) (x : string) (e : option expr)
| SDeclArray (t : ty) (x : string) (n : option Z) (l : list expr)
| SDeclNew (t : ty) (x : string) (args : list expr)       (* T x(args) *)
| SAlias (x target : string)                   (* CharacterAdder<t> x(target) *)
| SSeq (a b : stmt)
| SBlock (s : stmt)
| SIf (c : expr) (a b : stmt)
| SFor (i : stmt) (c : expr) (n : list expr) (s : stmt)
| SWhile (c : expr) (s : stmt)
| SDo (s : stmt) (c : expr)
| SEach (x : string) (e : expr) (s : stmt)     (* for (auto x : e) s *)
| SSwitch (e : expr) (s : stmt)                  (* switch (e) { s }, s made of SCase and at the end SSkip *)
| SCase (l : list (option Z)) (a s : stmt)       (* case 1: case 2: default: a, then the rest s; None is default *)
| SBreak
| SReturn (e : option expr).

(* [p_ref]: T& or CharacterAdder, what the callee does to it is seen by the caller *)
Record param := { p_ty : ty; p_ref : bool; p_name : string; p_default : option expr }.

Record fundef := { f_name : string; f_params : list param; f_ret : ty; f_body : stmt }.

Record program := {
  p_enums : list (string * option expr);               (* enumerators, in the order of definition; None: one more *)
  p_arrays : list (string * list expr);                (* arrays of enumerators at namespace scope *)
  p_funs : list fundef;
  p_decls : list fundef }.                             (* what is declared and not defined in these files; f_body is empty *)

(* [f] under the name by which a call sees it that is compiled before all overloads are declared *)
Definition seen_as (name : string) (f : fundef) : fundef :=
  {| f_name := name; f_params := f_params f; f_ret := f_ret f; f_body := f_body f |}.
