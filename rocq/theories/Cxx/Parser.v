(* A parser for the part of C++ the library is written in: from tokens to the syntax of Syntax.v.  By recursive descent
   along the grammar of the standard ([gram]); a number bounds the depth of the recursion.

   Left out of the result: static_assert, using, namespaces (the qualifier internal:: is kept where it is written, and
   put before toLower and turkicToLower within namespace internal, because there are others of that name outside), const.
   A typedef name is replaced by what it stands for. *)
From Coq Require Import ZArith List Bool String Ascii.
From Verif.Cxx Require Import Syntax Semantics Lexer.
Import ListNotations.
Local Open Scope string_scope.
Local Open Scope list_scope.
Local Open Scope Z_scope.

(* a parser takes tokens from the front of the list, or fails *)
Definition parser (A : Type) : Type := list token -> option (A * list token).

Notation "'let*' ( x , l ) := m 'in' k" := (match m with Some (x, l) => k | None => None end)
  (at level 200, x name, l name, m at level 100, k at level 200).
Notation "'let*' ( x , y , l ) := m 'in' k" := (match m with Some (x, y, l) => k | None => None end)
  (at level 200, x name, y name, l name, m at level 100, k at level 200).
Notation "'let*' l := m 'in' k" := (match m with Some l => k | None => None end)
  (at level 200, l name, m at level 100, k at level 200).
Notation "'when' l := m 'do' a 'else' b" := (match m with Some l => a | None => b end)
  (at level 200, l name, m at level 100, a at level 200, b at level 200).

Definition is (w : string) (t : token) : bool := match t with KWord s | KMark s => String.eqb w s | _ => false end.
Definition among (ws : list string) (s : string) : bool := existsb (String.eqb s) ws.

(* these words and marks, one after the other *)
Fixpoint eat (ws : list string) (l : list token) : option (list token) :=
  match ws, l with
  | [], _ => Some l
  | w :: ws', t :: l' => if is w t then eat ws' l' else None
  | _ :: _, [] => None
  end.

Definition name : parser string := fun l => match l with KWord x :: l => Some (x, l) | _ => None end.

(* where we are: the configuration, whether in namespace internal, the typedef names of the function *)
Record context := { k_config : configuration; k_internal : bool; k_types : list (string * ty) }.

Fixpoint known (l : list (string * ty)) (x : string) : option ty :=
  match l with [] => None | (y, t) :: l' => if String.eqb x y then Some t else known l' x end.

(* ---------------------------------------------------------------- types *)

Definition enumerations : list string := ["RangeType"; "EncodingType"; "SourceEncoding"; "RangeTypeFlags"; "EncodingTypeFlags"].

Definition wide (c : configuration) : ity := match c with Wchar32 => WChar32 | _ => WChar16 end.

(* interface/string.hxx:57-69 for utf8String and the like *)
Definition simple_types (c : configuration) : list (string * ty) :=
  [("bool", TI Bool); ("char", TI Char); ("char16_t", TI Char16); ("char32_t", TI Char32); ("int", TI Int);
   ("uint32_t", TI UInt); ("uint8_t", TI UChar); ("size_type", TI Size); ("auto", TAuto); ("void", TVoid); ("C", TC);
   ("string", TStr Char); ("utf8String", TStr Char); ("u16string", TStr Char16); ("utf16String", TStr Char16);
   ("ucs2String", TStr Char16); ("u32string", TStr Char32); ("ucs4String", TStr Char32);
   ("EncodingCheckPredicate", TPred); ("wchar_t", TI (wide c)); ("wstring", TStr (wide c))]
  ++ map (fun e => (e, TI Enum)) enumerations.

Fixpoint specifiers (const : bool) (l : list token) : bool * list token :=
  match l with
  | KWord w :: l' =>
    if String.eqb w "const" then specifiers true l'
    else if among ["typename"; "inline"; "static"; "extern"] w then specifiers const l'
    else (const, l)
  | _ => (const, l)
  end.

(* [decl-specifier-seq]: the type, is it const? *)
Fixpoint base_type (n : nat) (k : context) (l : list token) : option (ty * bool * list token) :=
  match n with
  | O => None
  | S n =>
    let (const, l) := specifiers false l in
    let l := match eat ["std"; "::"] l with Some l => l | None => l end in
    when l := eat ["unsigned"; "char"] l do Some (TI UChar, const, l)
    else when l := eat ["unsigned"; "int"] l do Some (TI UInt, const, l)
    else when r := eat ["unsigned"] l do
      match r with
      | t :: _ => if is "long" t || is "short" t then None else Some (TI UInt, const, r)
      | [] => None
      end
    else when l := eat ["vector"; "<"] l do
      match base_type n k l with
      | Some (TStrC, _, l) => let* l := eat [">"] l in Some (TVec, const, l)
      | _ => None
      end
    else when l := eat ["list"; "<"] l do
      match base_type n k l with
      | Some (TI Size, _, l) => let* l := eat [">"] l in Some (TList, const, l)
      | _ => None
      end
    else when l := eat ["basic_string"; "<"; "C"; ">"] l do Some (TStrC, const, l)
    else when l := eat ["CharacterAdder"; "<"] l do
      match base_type n k l with
      | Some (TI t, _, l) => let* l := eat [">"] l in Some (TAdder t, const, l)
      | _ => None
      end
    else
      let* (x, r) := name l in
      match known (k_types k) x with
      | Some t => when r := eat ["::"; "size_type"] r do Some (TI Size, const, r) else Some (t, const, r)
      | None =>
        match known (simple_types (k_config k)) x, eat ["::"] r with
        | Some t, None => Some (t, const, r)
        | _, _ => None
        end
      end
  end.

Definition depth_of_types : nat := 4.

(* with * and &; is it a reference to something not const (or a CharacterAdder, which is one)? *)
Definition full_type (k : context) (l : list token) : option (ty * bool * list token) :=
  let* (t, const, l) := base_type depth_of_types k l in
  let* (t, const, l) :=
    when l := eat ["*"] l do match t with TI t => Some (TPtr t, false, l) | _ => None end else Some (t, const, l) in
  let adder := match t with TAdder _ => true | _ => false end in
  when l := eat ["&"] l do Some (t, negb const || adder, l) else Some (t, adder, l).

(* ---------------------------------------------------------------- expressions *)

Definition internals : list string := ["toLower"; "turkicToLower"].

(* the binary operators, from those that bind least to those that bind most; all group from left to right *)
Definition levels : list (list (string * (expr -> expr -> expr))) :=
  [[("||", EOr)]; [("&&", EAnd)]; [("|", EBin BOr)]; [("^", EBin BXor)]; [("&", EBin BAnd)];
   [("==", EBin Eq); ("!=", EBin Ne)]; [("<", EBin Lt); (">", EBin Gt); ("<=", EBin Le); (">=", EBin Ge)];
   [("<<", EBin Shl); (">>", EBin Shr)]; [("+", EBin Add); ("-", EBin Sub)]; [("*", EBin Mul)]].

Definition operator_of {A} (ops : list (string * A)) (l : list token) : option (A * list token) :=
  match l with
  | KMark m :: l' =>
    (fix go (ops : list (string * A)) :=
       match ops with [] => None | (o, f) :: ops' => if String.eqb m o then Some (f, l') else go ops' end) ops
  | _ => None
  end.

(* [lex.phases] 6: adjacent string literals *)
Fixpoint adjacent (t : ity) (s : list Z) (l : list token) : option (list Z * list token) :=
  match l with
  | KText t' s' :: l' => if ity_eqb t t' then adjacent t (s ++ s') l' else None
  | _ => Some (s, l)
  end.

Definition variable (e : expr) : option string := match e with EVar x => Some x | _ => None end.

(* a::b::c without what does not matter *)
Fixpoint qualified (n : nat) (x : string) (l : list token) : option (string * list token) :=
  match n with
  | O => None
  | S n =>
    when r := eat ["::"] l do
      let* (y, r) := name r in
      qualified n (if String.eqb x "std" || String.eqb x "ansak" || among enumerations x then y else (x ++ "::" ++ y)%string) r
    else Some (x, l)
  end.

Section Expressions.
Context (k : context).

Fixpoint assignment (n : nat) (l : list token) {struct n} : option (expr * list token) :=
  match n with
  | O => None
  | S n =>
    let* (e, l) := binary n levels l in
    when l := eat ["?"] l do
      let* (a, l) := assignment n l in
      let* l := eat [":"] l in
      let* (b, l) := assignment n l in
      Some (ECond e a b, l)
    else when l := eat ["="] l do
      let* (r, l) := assignment n l in
      match e with
      | EVar x => Some (EAssign x r, l)
      | EField x f => Some (EAssignField x f r, l)
      | EIndex (EVar x) i => Some (EAssignIndex x i r, l)
      | _ => None
      end
    else
      match operator_of [("+=", Add); ("-=", Sub); ("&=", BAnd); ("|=", BOr)] l with
      | Some (o, l) =>
        let* (r, l) := assignment n l in
        match e with
        | EVar x => Some (EOpAssign o x r, l)
        | EField x f => Some (EOpAssignField o x f r, l)
        | _ => None
        end
      | None => Some (e, l)
      end
  end
with binary (n : nat) (ops : list (list (string * (expr -> expr -> expr)))) (l : list token) {struct n} : option (expr * list token) :=
  match n with
  | O => None
  | S n =>
    match ops with
    | [] => unary n l
    | o :: ops => let* (e, l) := binary n ops l in operands n o ops e l
    end
  end
with operands (n : nat) (o : list (string * (expr -> expr -> expr))) (ops : list (list (string * (expr -> expr -> expr)))) (e : expr)
  (l : list token) {struct n} : option (expr * list token) :=
  match n with
  | O => None
  | S n =>
    match operator_of o l with
    | Some (f, l) => let* (e', l) := binary n ops l in operands n o ops (f e e') l
    | None => Some (e, l)
    end
  end
with unary (n : nat) (l : list token) {struct n} : option (expr * list token) :=
  match n with
  | O => None
  | S n =>
    when l := eat ["!"] l do let* (e, l) := unary n l in Some (ENot e, l)
    else when l := eat ["~"] l do let* (e, l) := unary n l in Some (ECompl e, l)
    else when l := eat ["-"] l do let* (e, l) := unary n l in Some (ENeg e, l)
    else when l := eat ["++"] l do let* (e, l) := unary n l in let* x := variable e in Some (EPreInc x, l)
    else when l := eat ["*"; "this"] l do Some (EVar "this", l)
    else when l := eat ["*"] l do let* (e, l) := unary n l in Some (EDeref e, l)
    else let* (e, l) := primary n l in postfix n e l
  end
with postfix (n : nat) (e : expr) (l : list token) {struct n} : option (expr * list token) :=
  match n with
  | O => None
  | S n =>
    when l := eat ["["] l do
      let* (i, l) := assignment n l in
      let* l := eat ["]"] l in
      postfix n (EIndex e i) l
    else when l := eat ["."] l do
      let* (m, l) := name l in
      when r := eat ["("] l do
        let* (a, r) := arguments n r in
        postfix n (EMeth e m a) r
      else
        let* x := variable e in
        postfix n (EField x m) l
    else when l := eat ["++"] l do
      let* x := variable e in
      postfix n (EPostInc x) l
    else Some (e, l)
  end
(* after the parenthesis *)
with arguments (n : nat) (l : list token) {struct n} : option (list expr * list token) :=
  match n with
  | O => None
  | S n =>
    when l := eat [")"] l do Some ([], l)
    else
      let* (e, l) := assignment n l in
      let* (a, l) := further_arguments n l in
      Some (e :: a, l)
  end
with further_arguments (n : nat) (l : list token) {struct n} : option (list expr * list token) :=
  match n with
  | O => None
  | S n =>
    when l := eat [","] l do
      let* (e, l) := assignment n l in
      let* (a, l) := further_arguments n l in
      Some (e :: a, l)
    else let* l := eat [")"] l in Some ([], l)
  end
with primary (n : nat) (l : list token) {struct n} : option (expr * list token) :=
  match n with
  | O => None
  | S n =>
    match l with
    | KNumber h z :: l => Some (ELit h z, l)
    | KCharacter [z] :: l => Some (EChr z, l)
    | KText t s :: l => let* (s, l) := adjacent t s l in Some (EText t s, l)
    | _ =>
      let cast l :=
        let* (t, _r, l) := full_type k l in
        let* l := eat [">"; "("] l in
        let* (e, l) := assignment n l in
        let* l := eat [")"] l in
        Some (t, e, l) in
      when l := eat ["("] l do
        let* (e, l) := assignment n l in
        let* l := eat [")"] l in
        Some (e, l)
      else when l := eat ["true"] l do Some (EBool true, l)
      else when l := eat ["false"] l do Some (EBool false, l)
      else when l := eat ["nullptr"] l do Some (ENull, l)
      else when l := eat ["static_cast"; "<"] l do let* (t, e, l) := cast l in Some (ECast t e, l)
      else when l := eat ["reinterpret_cast"; "<"] l do
        match cast l with Some (TPtr t, e, l) => Some (EReinterpret t e, l) | _ => None end
      else when l := eat ["sizeof"; "("; "C"; ")"] l do Some (ESizeof, l)
      else when l := eat ["std"; "::"; "basic_string"; "<"; "C"; ">"; "::"; "npos"] l do Some (ENpos, l)
      else when l := eat ["this"; "=="; "&"] l do let* (x, l) := name l in Some (ESameObject "this" x, l)
      else when l := eat ["operator"; "=="; "("] l do
        let* (e, l) := assignment n l in
        let* l := eat [")"] l in
        Some (ECall "EncodingCheckPredicate::operator==" [EVar "this"; e], l)
      else
        match base_type depth_of_types k l with
        | Some (t, _, KMark "(" :: l) => let* (a, l) := arguments n l in Some (ENew t a, l)
        | _ =>
          let* (x, l) := name l in
          match known (k_types k) x, eat ["::"; "npos"] l with
          | Some _, Some l => Some (ENpos, l)
          | _, _ =>
            let* (x, l) := qualified n x l in
            when l := eat ["("] l do
              let* (a, l) := arguments n l in
              Some (ECall (if k_internal k && among internals x then ("internal::" ++ x)%string else x) a, l)
            else Some (if String.eqb x "m_mask" || String.eqb x "m_value" then EField "this" x else EVar x, l)
          end
        end
    end
  end.

(* ---------------------------------------------------------------- declarations in functions *)

(* { a, b, c }, after the brace *)
Fixpoint initial_list (n : nat) (l : list token) {struct n} : option (list expr * list token) :=
  match n with
  | O => None
  | S m =>
    when l := eat ["}"] l do Some ([], l)
    else
      let* (e, l) := assignment n l in
      when l := eat [","] l do
        let* (es, l) := initial_list m l in
        Some (e :: es, l)
      else let* l := eat ["}"] l in Some ([e], l)
  end.

Definition declarator (n : nat) (t : ty) (x : string) (l : list token) : option (stmt * list token) :=
  when l := eat ["="] l do let* (e, l) := assignment n l in Some (SDecl t x (Some e), l)
  else when l := eat ["["] l do
    let (size, l) := match l with KNumber _ z :: l => (Some z, l) | _ => (None, l) end in
    let* l := eat ["]"; "="; "{"] l in
    let* (es, l) := initial_list n l in
    Some (SDeclArray t x size es, l)
  else when l := eat ["("] l do
    let* (a, l) := arguments n l in
    match t, a with
    | TAdder _, [EVar y] => Some (SAlias x y, l)
    | TAdder _, _ => None
    | _, _ => Some (SDeclNew t x a, l)
    end
  else Some (SDecl t x None, l).

Fixpoint declarators (n : nat) (t : ty) (l : list token) {struct n} : option (list stmt * list token) :=
  match n with
  | O => None
  | S m =>
    let* (x, l) := name l in
    let* (s, l) := declarator n t x l in
    when l := eat [","] l do
      let* (ss, l) := declarators m t l in
      Some (s :: ss, l)
    else Some ([s], l)
  end.

(* one after the other, without what does nothing *)
Fixpoint in_sequence (l : list stmt) : stmt :=
  match l with
  | [] => SSkip
  | s :: l' =>
    match s, in_sequence l' with
    | SSkip, r => r
    | s, SSkip => s
    | s, r => SSeq s r
    end
  end.

(* without the ; *)
Definition declaration (n : nat) (l : list token) : option (stmt * list token) :=
  let* (t, ref, l) := full_type k l in
  let adder := match t with TAdder _ => true | _ => false end in
  if ref && negb adder then None
  else let* (ss, l) := declarators n t l in Some (in_sequence ss, l).

End Expressions.

(* ---------------------------------------------------------------- statements *)

(* the parts of if and of loops are blocks in the semantics anyhow *)
Definition unwrap (s : stmt) : stmt := match s with SBlock s => s | _ => s end.

Fixpoint labels (n : nat) (l : list token) : option (list (option Z) * list token) :=
  match n with
  | O => None
  | S n =>
    when l := eat ["default"; ":"] l do let* (r, l) := labels n l in Some (None :: r, l)
    else when l := eat ["case"] l do
      match l with
      | KNumber _ z :: l => let* l := eat [":"] l in let* (r, l) := labels n l in Some (Some z :: r, l)
      | _ => None
      end
    else Some ([], l)
  end.

Fixpoint skip_to (w : string) (l : list token) : option (list token) :=
  match l with [] => None | t :: l' => if is w t then Some l' else skip_to w l' end.

Definition declares (s : stmt) : bool :=
  match s with SDecl _ _ _ | SDeclArray _ _ _ _ | SDeclNew _ _ _ | SAlias _ _ | SSeq _ _ => true | _ => false end.

Fixpoint distinct (l : list (option Z)) : bool :=
  match l with
  | [] => true
  | x :: l' => negb (existsb (fun y => match x, y with Some a, Some b => a =? b | None, None => true | _, _ => false end) l') && distinct l'
  end.

Fixpoint all_labels (s : stmt) : list (option Z) := match s with SCase l _ s => l ++ all_labels s | _ => [] end.

(* also gives the typedef names from here on *)
Fixpoint statement (n : nat) (k : context) (l : list token) {struct n} : option (stmt * context * list token) :=
  match n with
  | O => None
  | S n =>
    let substatement l := let* (s, _k, l) := statement n k l in Some (unwrap s, l) in
    let in_parentheses l :=
      let* l := eat ["("] l in
      let* (e, l) := assignment k n l in
      let* l := eat [")"] l in
      Some (e, l) in
    when l := eat ["{"] l do let* (ss, l) := block n k l in Some (SBlock (in_sequence ss), k, l)
    else when l := eat ["static_assert"] l do let* l := skip_to ";" l in Some (SSkip, k, l)
    else when l := eat ["typedef"] l do
      let* (t, _c, l) := base_type depth_of_types k l in
      let* (x, l) := name l in
      let* l := eat [";"] l in
      Some (SSkip, {| k_config := k_config k; k_internal := k_internal k; k_types := (x, t) :: k_types k |}, l)
    else when l := eat ["if"] l do
      let* (c, l) := in_parentheses l in
      let* (a, l) := substatement l in
      when l := eat ["else"] l do
        let* (b, l) := substatement l in
        Some (SIf c a b, k, l)
      else Some (SIf c a SSkip, k, l)
    else when l := eat ["for"; "("] l do
      match l with
      | KWord "auto" :: KWord x :: KMark ":" :: l =>
        let* (e, l) := assignment k n l in
        let* l := eat [")"] l in
        let* (s, l) := substatement l in
        Some (SEach x e s, k, l)
      | _ =>
        let* (i, l) := declaration k n l in
        let* l := eat [";"] l in
        let* (c, l) := assignment k n l in
        let* l := eat [";"] l in
        let* (a, l) := assignment k n l in
        let* (b, l) := further_arguments k n l in
        let* (s, l) := substatement l in
        Some (SFor i c (a :: b) s, k, l)
      end
    else when l := eat ["while"] l do
      let* (c, l) := in_parentheses l in
      let* (s, l) := substatement l in
      Some (SWhile c s, k, l)
    else when l := eat ["do"] l do
      let* (s, l) := substatement l in
      let* l := eat ["while"] l in
      let* (c, l) := in_parentheses l in
      let* l := eat [";"] l in
      Some (SDo s c, k, l)
    else when l := eat ["switch"] l do
      let* (c, l) := in_parentheses l in
      let* l := eat ["{"] l in
      let* (s, l) := groups n k l in
      if distinct (all_labels s) then Some (SSwitch c s, k, l) else None
    else when l := eat ["break"; ";"] l do Some (SBreak, k, l)
    else when l := eat ["return"; ";"] l do Some (SReturn None, k, l)
    else when l := eat ["return"] l do
      let* (e, l) := assignment k n l in
      let* l := eat [";"] l in
      Some (SReturn (Some e), k, l)
    else
      match declaration k n l with
      | Some (s, l) => let* l := eat [";"] l in Some (s, k, l)
      | None =>
        let* (e, l) := assignment k n l in
        let* l := eat [";"] l in
        Some (SExpr e, k, l)
      end
  end
(* after the brace *)
with block (n : nat) (k : context) (l : list token) {struct n} : option (list stmt * list token) :=
  match n with
  | O => None
  | S n =>
    when l := eat ["}"] l do Some ([], l)
    else
      let* (s, k, l) := statement n k l in
      let* (ss, l) := block n k l in
      Some (s :: ss, l)
  end
with groups (n : nat) (k : context) (l : list token) {struct n} : option (stmt * list token) :=
  match n with
  | O => None
  | S n =>
    when l := eat ["}"] l do Some (SSkip, l)
    else
      match labels n l with
      | Some ((_ :: _) as ls, l) =>
        let* (ss, l) := group n k l in
        if existsb declares ss then None
        else let* (s, l) := groups n k l in Some (SCase ls (in_sequence ss) s, l)
      | _ => None
      end
  end
(* the statements up to the next label or the end *)
with group (n : nat) (k : context) (l : list token) {struct n} : option (list stmt * list token) :=
  match n with
  | O => None
  | S n =>
    match l with
    | t :: _ =>
      if is "case" t || is "default" t || is "}" t then Some ([], l)
      else
        let* (s, k, l) := statement n k l in
        let* (ss, l) := group n k l in
        Some (s :: ss, l)
    | [] => None
    end
  end.

(* ---------------------------------------------------------------- functions *)

(* after the parenthesis; [p_name] is "_" if there is none *)
Fixpoint parameters (n : nat) (k : context) (l : list token) : option (list param * list token) :=
  match n with
  | O => None
  | S m =>
    let* (t, ref, l) := full_type k l in
    let (x, l) := match name l with Some (x, l) => (x, l) | None => ("_", l) end in
    let* (d, l) := when l := eat ["="] l do let* (e, l) := assignment k n l in Some (Some e, l) else Some (None, l) in
    let p := {| p_ty := t; p_ref := ref; p_name := x; p_default := d |} in
    when l := eat [")"] l do Some ([p], l)
    else
      let* l := eat [","] l in
      let* (ps, l) := parameters m k l in
      Some (p :: ps, l)
  end.

(* : a(x), b(y) of a constructor *)
Fixpoint initialisers (n : nat) (k : context) (l : list token) : option (list stmt * list token) :=
  match n with
  | O => None
  | S m =>
    let* (f, l) := name l in
    let* l := eat ["("] l in
    match arguments k n l with
    | Some ([e], l) =>
      let s := SExpr (EAssignField "this" f e) in
      when l := eat [","] l do
        let* (ss, l) := initialisers m k l in
        Some (s :: ss, l)
      else Some ([s], l)
    | _ => None
    end
  end.

Definition the_class : string := "EncodingCheckPredicate".

(* the name, the class it belongs to, is it the constructor?; up to the parenthesis *)
Definition function_name (inside : bool) (l : list token) : option (string * bool * list token) :=
  let (member, l) := when r := eat [the_class; "::"] l do (true, r) else (inside, l) in
  when l := eat ["operator"; "("; ")"; "("] l do Some ("operator()", member, l)
  else when l := eat ["operator"] l do
    match l with
    | KMark m :: l => let* l := eat ["("] l in Some (("operator" ++ m)%string, member, l)
    | _ => None
    end
  else
    let* (x, l) := name l in
    let* l := eat ["("] l in
    Some (x, member, l).

Definition constructor_name (inside : bool) (l : list token) : option (list token) :=
  when l := eat [the_class; "::"; the_class; "("] l do Some l
  else if inside then eat [the_class; "("] l else None.

Fixpoint is_static (l : list token) (n : nat) : bool :=
  match l, n with t :: l', S n' => is "static" t || is_static l' n' | _, _ => false end.

(* a function; does it have a body? [inside]: within the class *)
Definition function (n : nat) (k : context) (inside : bool) (start : list token) : option (fundef * bool * list token) :=
  let* (head, l) :=
    when l := constructor_name inside start do Some ((the_class, true, true, TPred), l)
    else
      let* (ret, _r, l) := full_type k start in
      let* (x, member, l) := function_name inside l in
      Some ((x, member, false, ret), l) in
  match head with (x, member, constructor, ret) =>
    let static := is_static start (List.length start - List.length l)%nat in
    let* (ps, l) := when l := eat [")"] l do Some ([], l) else parameters n k l in
    let (const, l) := when l := eat ["const"] l do (true, l) else (false, l) in
    let* (pre, l) :=
      when r := eat [":"] l do (if constructor then initialisers n k r else None) else Some ([], l) in
    let full := if member then (the_class ++ "::" ++ x)%string
                else if k_internal k && among internals x then ("internal::" ++ x)%string else x in
    let this := {| p_ty := TPred; p_ref := negb const && negb constructor; p_name := "this"; p_default := None |} in
    let ps := if member && negb static then this :: ps else ps in
    let f s := {| f_name := full; f_params := ps; f_ret := ret; f_body := s |} in
    when l := eat [";"] l do Some (f SSkip, false, l)
    else
      let* l := eat ["{"] l in
      let* (ss, l) := block n k l in
      let body := in_sequence ss in
      Some (f (if constructor then in_sequence (pre ++ [body; SReturn (Some (EVar "this"))]) else body), true, l)
  end.

(* ---------------------------------------------------------------- files *)

Inductive item :=
| IFunction (f : fundef)
| IDeclared (f : fundef)
| IEnumerator (x : string) (e : option expr)
| IArray (x : string) (l : list expr)
| IText (x : string) (e : expr).

(* after the brace; the first is 0 *)
Fixpoint enumerators (n : nat) (k : context) (first : bool) (l : list token) : option (list item * list token) :=
  match n with
  | O => None
  | S m =>
    when l := eat ["}"] l do Some ([], l)
    else
      let* (x, l) := name l in
      let* (e, l) :=
        when l := eat ["="] l do let* (e, l) := assignment k n l in Some (Some e, l)
        else Some (if first then Some (ELit false 0) else None, l) in
      let l := when l := eat [","] l do l else l in
      let* (es, l) := enumerators m k false l in
      Some (IEnumerator x e :: es, l)
  end.

(* class CharacterAdder is part of the semantics (Semantics.v): this is its text *)
Definition character_adder : list token :=
  [KMark "{"; KWord "static_assert"; KMark "("; KWord "std"; KMark "::"; KWord "is_integral"; KMark "<"; KWord "C"; KMark ">"; KMark "::";
   KWord "value"; KMark ","; KText Char (map code (list_ascii_of_string "CharacterAdder needs an integral type.")); KMark ")"; KMark ";";
   KWord "public"; KMark ":";
   KWord "CharacterAdder"; KMark "("; KWord "std"; KMark "::"; KWord "basic_string"; KMark "<"; KWord "C"; KMark ">"; KMark "&"; KWord "result";
   KMark ")"; KMark ":"; KWord "m_destination"; KMark "("; KWord "result"; KMark ")"; KMark "{"; KMark "}";
   KWord "void"; KWord "operator"; KMark "("; KMark ")"; KMark "("; KWord "C"; KWord "c"; KMark ")";
   KMark "{"; KWord "m_destination"; KMark "."; KWord "push_back"; KMark "("; KWord "c"; KMark ")"; KMark ";"; KMark "}";
   KWord "private"; KMark ":";
   KWord "std"; KMark "::"; KWord "basic_string"; KMark "<"; KWord "C"; KMark ">"; KMark "&"; KWord "m_destination"; KMark ";"; KMark "}"; KMark ";"].

Fixpoint same_numbers (a b : list Z) : bool :=
  match a, b with [], [] => true | x :: a', y :: b' => (x =? y) && same_numbers a' b' | _, _ => false end.
Definition same_token (a b : token) : bool :=
  match a, b with
  | KWord s, KWord s' | KMark s, KMark s' => String.eqb s s'
  | KText t s, KText t' s' => ity_eqb t t' && same_numbers s s'
  | _, _ => false
  end.
Fixpoint exactly (w l : list token) : option (list token) :=
  match w, l with
  | [], _ => Some l
  | a :: w', b :: l' => if same_token a b then exactly w' l' else None
  | _, [] => None
  end.

(* the default constructor is part of the semantics too ([construct], TPred) *)
Definition default_constructor (f : fundef) : bool :=
  String.eqb (f_name f) (the_class ++ "::" ++ the_class)%string && match f_params f with [_] => true | _ => false end.
Definition item_of (f : fundef) (body : bool) : list item :=
  if body then (if default_constructor f then [] else [IFunction f]) else [IDeclared f].

(* the members of the class, after the brace *)
Fixpoint members (n : nat) (k : context) (l : list token) : option (list item * list token) :=
  match n with
  | O => None
  | S m =>
    when l := eat ["}"; ";"] l do Some ([], l)
    else when l := eat ["public"; ":"] l do members m k l
    else when l := eat ["private"; ":"] l do members m k l
    else when l := eat ["uint32_t"; "m_mask"; ";"] l do members m k l
    else when l := eat ["uint32_t"; "m_value"; ";"] l do members m k l
    else
      let* (f, b, l) := function n k true l in
      let* (r, l) := members m k l in
      Some (item_of f b ++ r, l)
  end.

(* [spaces]: the namespaces we are in *)
Fixpoint toplevel (n : nat) (c : configuration) (spaces : list string) (l : list token) : option (list item) :=
  let k := {| k_config := c; k_internal := among spaces "internal"; k_types := [] |} in
  match n, l with
  | O, _ => None
  | S _, [] => match spaces with [] => Some [] | _ => None end
  | S m, _ =>
    let further (is : list item) (l : list token) := let* r := toplevel m c spaces l in Some (is ++ r) in
    when l := eat ["}"] l do match spaces with _ :: spaces => toplevel m c spaces l | [] => None end
    else when l := eat ["namespace"; "{"] l do toplevel m c ("" :: spaces) l
    else when l := eat ["namespace"] l do
      let* (x, l) := name l in
      let* l := eat ["{"] l in
      toplevel m c (x :: spaces) l
    else when l := eat ["using"] l do let* l := skip_to ";" l in toplevel m c spaces l
    else when l := eat ["extern"] l do let* l := skip_to ";" l in toplevel m c spaces l
    else when l := eat ["enum"] l do
      let* (_x, l) := name l in
      let* l := eat [":"; "int"; "{"] l in
      let* (is, l) := enumerators n k true l in
      let* l := eat [";"] l in
      further is l
    else
      let l := when l := eat ["template"; "<"; "typename"; "C"; ">"] l do l else l in
      when l := eat ["class"; "CharacterAdder"] l do let* l := exactly character_adder l in toplevel m c spaces l
      else when l := eat ["class"; the_class; "{"] l do
        let* (is, l) := members n k l in
        further is l
      else
        match function n k false l with
        | Some (f, b, l) => further (item_of f b) l
        | None =>
          let* (t, _r, l) := full_type k l in
          let* (x, l) := name l in
          match t with
          | TStr Char =>
            let* l := eat ["="] l in
            let* (e, l) := assignment k n l in
            let* l := eat [";"] l in
            further [IText x e] l
          | TI Enum =>
            let* l := eat ["["] l in
            let* (_e, l) := assignment k n l in
            let* l := eat ["]"; "="; "{"] l in
            let* (es, l) := initial_list k n l in
            let* l := eat [";"] l in
            further [IArray x es] l
          | _ => None
          end
        end
  end.

Definition room : nat := N.to_nat 5000.

Definition parse_file (c : configuration) (file : list string) : option (list item) :=
  let* l := file_tokens c file in toplevel room c [] l.
