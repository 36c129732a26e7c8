(* A parser for mkUnicodeTestData/mkUnicodeTestData.cxx, as Parser.v is one for the library. *)
From Coq Require Import ZArith List Bool String.
From Verif.Cxx Require Import Syntax Semantics Lexer Parser Tool.
Import ListNotations.
Local Open Scope string_scope.
Local Open Scope list_scope.
Local Open Scope Z_scope.

(* the binary operators, from those that bind least to those that bind most *)
Definition tool_levels : list (list (string * (texpr -> texpr -> texpr))) :=
  [[("||", XOr)]; [("&&", XAnd)]; [("|", XBin BOr)]; [("==", XBin Eq); ("!=", XBin Ne)];
   [("<", XBin Lt); (">", XBin Gt); ("<=", XBin Le); (">=", XBin Ge)]; [("<<", XBin Shl)]; [("+", XBin Add); ("-", XBin Sub)];
   [("*", XBin Mul); ("%", XRem)]].

(* a::b::c, without std:: *)
Definition tool_name (n : nat) (l : list token) : option (string * list token) :=
  let* (x, l) := name l in qualified n x l.

Fixpoint t_assignment (n : nat) (l : list token) {struct n} : option (texpr * list token) :=
  match n with
  | O => None
  | S n =>
    let* (e, l) := t_binary n tool_levels l in
    when l := eat ["="] l do
      let* (r, l) := t_assignment n l in
      match e with XName x => Some (XAssign x r, l) | _ => None end
    else Some (e, l)
  end
with t_binary (n : nat) (ops : list (list (string * (texpr -> texpr -> texpr)))) (l : list token) {struct n} : option (texpr * list token) :=
  match n with
  | O => None
  | S n =>
    match ops with
    | [] => t_unary n l
    | o :: ops => let* (e, l) := t_binary n ops l in t_operands n o ops e l
    end
  end
with t_operands (n : nat) (o : list (string * (texpr -> texpr -> texpr))) (ops : list (list (string * (texpr -> texpr -> texpr)))) (e : texpr)
  (l : list token) {struct n} : option (texpr * list token) :=
  match n with
  | O => None
  | S n =>
    match operator_of o l with
    | Some (f, l) => let* (e', l) := t_binary n ops l in t_operands n o ops (f e e') l
    | None => Some (e, l)
    end
  end
with t_unary (n : nat) (l : list token) {struct n} : option (texpr * list token) :=
  match n with
  | O => None
  | S n =>
    when l := eat ["!"] l do let* (e, l) := t_unary n l in Some (XNot e, l)
    else when l := eat ["++"] l do let* (x, l) := name l in Some (XPreInc x, l)
    else when l := eat ["&"] l do let* (x, l) := name l in Some (XAddress x, l)
    else let* (e, l) := t_primary n l in t_postfix n e l
  end
with t_postfix (n : nat) (e : texpr) (l : list token) {struct n} : option (texpr * list token) :=
  match n with
  | O => None
  | S n =>
    when l := eat ["["] l do
      let* (i, l) := t_assignment n l in
      let* l := eat ["]"] l in
      t_postfix n (XIndex e i) l
    else when l := eat ["."] l do
      let* (m, l) := name l in
      let* l := eat ["("] l in
      let* (a, l) := t_arguments n l in
      t_postfix n (XMeth e m a) l
    else Some (e, l)
  end
(* after the parenthesis *)
with t_arguments (n : nat) (l : list token) {struct n} : option (list texpr * list token) :=
  match n with
  | O => None
  | S n =>
    when l := eat [")"] l do Some ([], l)
    else
      let* (e, l) := t_assignment n l in
      let* (a, l) := t_further n l in
      Some (e :: a, l)
  end
with t_further (n : nat) (l : list token) {struct n} : option (list texpr * list token) :=
  match n with
  | O => None
  | S n =>
    when l := eat [","] l do
      let* (e, l) := t_assignment n l in
      let* (a, l) := t_further n l in
      Some (e :: a, l)
    else let* l := eat [")"] l in Some ([], l)
  end
with t_primary (n : nat) (l : list token) {struct n} : option (texpr * list token) :=
  match n with
  | O => None
  | S n =>
    match l with
    | KNumber false z :: l => Some (XInt z, l)
    | KCharacter [z] :: l => Some (XChar z, l)
    | KText Char s :: l => let* (s, l) := adjacent Char s l in Some (XText s, l)
    | _ =>
      when l := eat ["("] l do
        let* (e, l) := t_assignment n l in
        let* l := eat [")"] l in
        Some (e, l)
      else when l := eat ["true"] l do Some (XBool true, l)
      else when l := eat ["false"] l do Some (XBool false, l)
      else when l := eat ["string"; "::"; "npos"] l do Some (XNpos, l)
      else
        let* (x, l) := tool_name n l in
        when l := eat ["("] l do
          let* (a, l) := t_arguments n l in
          Some (XCall x a, l)
        else Some (XName x, l)
    end
  end.

(* ---------------------------------------------------------------- statements *)

Definition tool_types : list string := ["auto"; "int"; "bool"; "string"; "istream"; "ostream"; "filebuf"].

(* without the ; *)
Definition t_declaration (n : nat) (l : list token) : option (tstmt * list token) :=
  let* (t, l) :=
    when l := eat ["struct"; "stat"] l do Some ("stat", l)
    else let* (t, l) := name l in if among tool_types t then Some (t, l) else None in
  let* (x, l) := name l in
  when l := eat ["="] l do let* (e, l) := t_assignment n l in Some (YDecl t x (Some e), l)
  else when l := eat ["("] l do let* (a, l) := t_arguments n l in Some (YNew t x a, l)
  else Some (YDecl t x None, l).

Fixpoint t_sequence (l : list tstmt) : tstmt :=
  match l with [] => YSkip | [s] => s | s :: l' => YSeq s (t_sequence l') end.
Definition t_unwrap (s : tstmt) : tstmt := match s with YBlock s => s | _ => s end.

Fixpoint t_statement (n : nat) (l : list token) {struct n} : option (tstmt * list token) :=
  match n with
  | O => None
  | S n =>
    let substatement l := let* (s, l) := t_statement n l in Some (t_unwrap s, l) in
    let in_parentheses l :=
      let* l := eat ["("] l in
      let* (e, l) := t_assignment n l in
      let* l := eat [")"] l in
      Some (e, l) in
    when l := eat ["{"] l do let* (ss, l) := t_block n l in Some (YBlock (t_sequence ss), l)
    else when l := eat ["if"] l do
      let* (c, l) := in_parentheses l in
      let* (a, l) := substatement l in
      when l := eat ["else"] l do
        let* (b, l) := substatement l in
        Some (YIf c a b, l)
      else Some (YIf c a YSkip, l)
    else when l := eat ["while"] l do
      let* (c, l) := in_parentheses l in
      let* (s, l) := substatement l in
      Some (YWhile c s, l)
    else when l := eat ["try"; "{"] l do
      let* (a, l) := t_block n l in
      let* l := eat ["catch"; "("; "."; "."; "."; ")"; "{"] l in
      let* (b, l) := t_block n l in
      Some (YTry (t_sequence a) (t_sequence b), l)
    else when l := eat ["continue"; ";"] l do Some (YContinue, l)
    else when l := eat ["return"] l do
      let* (e, l) := t_assignment n l in
      let* l := eat [";"] l in
      Some (YReturn e, l)
    else
      match t_declaration n l with
      | Some (s, l) => let* l := eat [";"] l in Some (s, l)
      | None =>
        let* (e, l) := t_assignment n l in
        let* l := eat [";"] l in
        Some (YExpr e, l)
      end
  end
(* after the brace *)
with t_block (n : nat) (l : list token) {struct n} : option (list tstmt * list token) :=
  match n with
  | O => None
  | S n =>
    when l := eat ["}"] l do Some ([], l)
    else
      let* (s, l) := t_statement n l in
      let* (ss, l) := t_block n l in
      Some (s :: ss, l)
  end.

(* ---------------------------------------------------------------- functions *)

(* filebuf& x, int x, char* x[]; the name and whether it is a reference; after the parenthesis *)
Fixpoint t_parameters (n : nat) (l : list token) : option (list (string * bool) * list token) :=
  match n with
  | O => None
  | S n =>
    let* (x, ref, l) :=
      when l := eat ["filebuf"; "&"] l do let* (x, l) := name l in Some (x, true, l)
      else when l := eat ["int"] l do let* (x, l) := name l in Some (x, false, l)
      else
        let* l := eat ["char"; "*"] l in
        let* (x, l) := name l in
        let* l := eat ["["; "]"] l in
        Some (x, false, l) in
    when l := eat [")"] l do Some ([(x, ref)], l)
    else
      let* l := eat [","] l in
      let* (ps, l) := t_parameters n l in
      Some ((x, ref) :: ps, l)
  end.

Fixpoint t_functions (n : nat) (l : list token) : option (list tfun) :=
  match n, l with
  | O, _ => None
  | S n, [] => Some []
  | S n, _ =>
    when l := eat ["using"; "namespace"] l do let* l := skip_to ";" l in t_functions n l
    else
      let* l := when l := eat ["void"] l do Some l else eat ["int"] l in
      let* (f, l) := name l in
      let* l := eat ["("] l in
      let* (ps, l) := t_parameters n l in
      let* l := eat ["{"] l in
      let* (ss, l) := t_block n l in
      let* r := t_functions n l in
      Some ({| t_name := f; t_params := ps; t_body := t_sequence ss |} :: r)
  end.

Definition tool_room : nat := 300.

Definition parse_tool (c : configuration) (file : list string) : option (list tfun) :=
  let* l := file_tokens c file in t_functions tool_room l.
