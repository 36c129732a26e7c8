(* From the text of the files to the program whose calls Semantics.v and Linked.v run. *)
From Coq Require Import ZArith List Bool String Ascii.
From Verif Require Import Machine.
From Verif.Model Require Import Tables.
From Verif.Cxx Require Import Syntax Semantics Lexer Parser Linked.
Import ListNotations.
Local Open Scope string_scope.
Local Open Scope list_scope.

(* ---------------------------------------------------------------- functions are the same if name and types agree *)

Definition ty_eqb (a b : ty) : bool :=
  match a, b with
  | TI t, TI u | TPtr t, TPtr u | TStr t, TStr u | TAdder t, TAdder u => ity_eqb t u
  | TPred, TPred | TVec, TVec | TList, TList | TC, TC | TStrC, TStrC | TAuto, TAuto | TVoid, TVoid => true
  | _, _ => false
  end.
Fixpoint tys_eqb (a b : list ty) : bool :=
  match a, b with [], [] => true | x :: a', y :: b' => ty_eqb x y && tys_eqb a' b' | _, _ => false end.

Definition types (f : fundef) : list ty := map p_ty (f_params f).
Definition same_key (f g : fundef) : bool := String.eqb (f_name f) (f_name g) && tys_eqb (types f) (types g).

(* a function, the file it is in and whether it has a body *)
Record entry := { e_file : string; e_fun : fundef; e_defined : bool }.

(* [dcl.fct.default]: a definition takes the default arguments of an earlier declaration *)
Definition with_default (p d : param) : param :=
  match p_default p with
  | Some _ => p
  | None => {| p_ty := p_ty p; p_ref := p_ref p; p_name := p_name p; p_default := p_default d |}
  end.
Fixpoint with_defaults (ps ds : list param) : list param :=
  match ps, ds with p :: ps', d :: ds' => with_default p d :: with_defaults ps' ds' | _, _ => ps end.
Definition completed (before : list entry) (f : fundef) : fundef :=
  match List.find (fun e => negb (e_defined e) && same_key f (e_fun e)) before with
  | Some e => {| f_name := f_name f; f_params := with_defaults (f_params f) (f_params (e_fun e)); f_ret := f_ret f; f_body := f_body f |}
  | None => f
  end.

(* ---------------------------------------------------------------- which overloads a call sees *)

(* An overload is seen if it is declared before the body of the caller, in the same file or in a header. *)
Definition header (file : string) : bool :=
  let n := String.length file in String.eqb (substring (n - 4) 4 file) ".hxx".
Definition seen (file : string) (e : entry) : bool := header (e_file e) || String.eqb (e_file e) file.

(* the types of variables, as far as they are declared *)
Definition scope := list (string * ty).

(* the type of an argument if it is easily seen *)
Definition type_of (enums : list string) (s : scope) (e : expr) : option ty :=
  match e with
  | EVar x => match known s x with Some t => Some t | None => if among enums x then Some (TI Enum) else None end
  | EReinterpret t _ => Some (TPtr t)
  | ECast t _ => Some t
  | EMeth (EVar x) "c_str" [] => match known s x with Some (TStr t) => Some (TPtr t) | _ => None end
  | _ => None
  end.

(* the calls in an expression *)
Fixpoint calls_in (e : expr) : list (string * list expr) :=
  match e with
  | ENot a | ECompl a | ENeg a | EDeref a | ECast _ a | EReinterpret _ a | EAssign _ a | EOpAssign _ _ a
  | EAssignField _ _ a | EOpAssignField _ _ _ a => calls_in a
  | EBin _ a b | EAnd a b | EOr a b | EIndex a b | EAssignIndex _ a b => calls_in a ++ calls_in b
  | ECond a b c => calls_in a ++ calls_in b ++ calls_in c
  | ECall f l => flat_map calls_in l ++ [(f, l)]
  | EMeth a _ l => calls_in a ++ flat_map calls_in l
  | ENew _ l => flat_map calls_in l
  | _ => []
  end.

Definition call_types (enums : list string) (s : scope) (e : expr) : list (string * list (option ty)) :=
  map (fun c => (fst c, map (type_of enums s) (snd c))) (calls_in e).

(* the calls in a statement, and the variables declared by then *)
Fixpoint calls_of (enums : list string) (s : scope) (a : stmt) : list (string * list (option ty)) * scope :=
  let ex := call_types enums s in
  match a with
  | SSkip | SBreak | SReturn None => ([], s)
  | SExpr e | SReturn (Some e) => (ex e, s)
  | SDecl t x None => ([], (x, t) :: s)
  | SDecl t x (Some e) => (ex e, (x, t) :: s)
  | SDeclArray t x _ l | SDeclNew t x l => (flat_map ex l, (x, t) :: s)
  | SAlias x _ => ([], (x, TAuto) :: s)
  | SSeq a b => let (c, s) := calls_of enums s a in let (d, s) := calls_of enums s b in (c ++ d, s)
  | SBlock a => (fst (calls_of enums s a), s)
  | SIf e a b => (ex e ++ fst (calls_of enums s a) ++ fst (calls_of enums s b), s)
  | SFor i e l a =>
    let (c, s') := calls_of enums s i in
    (c ++ call_types enums s' e ++ flat_map (call_types enums s') l ++ fst (calls_of enums s' a), s)
  | SWhile e a | SDo a e | SEach _ e a | SSwitch e a => (ex e ++ fst (calls_of enums s a), s)
  | SCase _ a b => (fst (calls_of enums s a) ++ fst (calls_of enums s b), s)
  end.

Fixpoint known_types (l : list (option ty)) : option (list ty) :=
  match l with
  | [] => Some []
  | Some t :: l' => match known_types l' with Some r => Some (t :: r) | None => None end
  | None :: _ => None
  end.

Definition required (f : fundef) : nat :=
  List.length (filter (fun p => match p_default p with None => true | Some _ => false end) (f_params f)).

Fixpoint has_mark (s : string) : bool :=
  match s with EmptyString => false | String a s' => Ascii.eqb a ":" || has_mark s' end.

(* A call for which overloads with that many parameters are not seen, and none that is seen takes exactly the types of the
   arguments: here it might matter that they are not seen.  [before]: what is declared before the body (the caller
   included); [all]: everything *)
Definition matters (before all : list entry) (file : string) (call : string * list (option ty)) : bool :=
  let (f, ts) := call in
  if has_mark f then false
  else
    let n := List.length ts in
    let fits e := String.eqb (f_name (e_fun e)) f && (required (e_fun e) <=? n)%nat && (n <=? List.length (f_params (e_fun e)))%nat in
    let visible := filter (fun e => fits e && seen file e) before in
    if forallb (fun e => existsb (fun e' => same_key (e_fun e) (e_fun e')) visible) (filter fits all) then false
    else
      match known_types ts with
      | Some ts => negb (existsb (fun e => tys_eqb (firstn n (types (e_fun e))) ts) visible)
      | None => true
      end.

(* Such a call is given a name of its own: "f (seen by T, U)", T and U being the types of the caller's parameters. *)
Definition ity_name (t : ity) : string :=
  match t with
  | Bool => "Bool" | Char => "Char" | UChar => "UChar" | Char16 => "Char16" | Char32 => "Char32" | Int => "Int" | UInt => "UInt"
  | Size => "Size" | Long => "Long" | Enum => "Enum" | WChar16 => "WChar16" | WChar32 => "WChar32"
  end.
Definition ty_name (t : ty) : string :=
  match t with
  | TI t => ity_name t
  | TPtr t => "p" ++ ity_name t | TStr t => "s" ++ ity_name t | TAdder t => "a" ++ ity_name t
  | TPred => "Pred" | TVec => "Vec" | TList => "List" | TC => "C" | TStrC => "sC" | TAuto => "Auto" | TVoid => "Void"
  end.
Definition own_name (caller : fundef) (f : string) : string :=
  (f ++ " (seen by " ++ String.concat ", " (map ty_name (types caller)) ++ ")")%string.

Fixpoint rename (h : string -> string) (e : expr) : expr :=
  match e with
  | ENot a => ENot (rename h a)
  | ECompl a => ECompl (rename h a)
  | ENeg a => ENeg (rename h a)
  | EBin o a b => EBin o (rename h a) (rename h b)
  | EAnd a b => EAnd (rename h a) (rename h b)
  | EOr a b => EOr (rename h a) (rename h b)
  | ECond a b c => ECond (rename h a) (rename h b) (rename h c)
  | EDeref a => EDeref (rename h a)
  | EIndex a b => EIndex (rename h a) (rename h b)
  | ECast t a => ECast t (rename h a)
  | EReinterpret t a => EReinterpret t (rename h a)
  | EAssign x a => EAssign x (rename h a)
  | EOpAssign o x a => EOpAssign o x (rename h a)
  | EAssignField x f a => EAssignField x f (rename h a)
  | EOpAssignField o x f a => EOpAssignField o x f (rename h a)
  | EAssignIndex x a b => EAssignIndex x (rename h a) (rename h b)
  | ECall f l => ECall (h f) (map (rename h) l)
  | EMeth a m l => EMeth (rename h a) m (map (rename h) l)
  | ENew t l => ENew t (map (rename h) l)
  | ELit _ _ | EChr _ | EText _ _ | EBool _ | ENull | EVar _ | EField _ _ | ESameObject _ _ | ESizeof | ENpos | EPreInc _ | EPostInc _ => e
  end.
Fixpoint rename_in (h : string -> string) (a : stmt) : stmt :=
  match a with
  | SSkip | SBreak | SAlias _ _ => a
  | SExpr e => SExpr (rename h e)
  | SDecl t x e => SDecl t x (option_map (rename h) e)
  | SDeclArray t x n l => SDeclArray t x n (map (rename h) l)
  | SDeclNew t x l => SDeclNew t x (map (rename h) l)
  | SSeq a b => SSeq (rename_in h a) (rename_in h b)
  | SBlock a => SBlock (rename_in h a)
  | SIf e a b => SIf (rename h e) (rename_in h a) (rename_in h b)
  | SFor i e l a => SFor (rename_in h i) (rename h e) (map (rename h) l) (rename_in h a)
  | SWhile e a => SWhile (rename h e) (rename_in h a)
  | SDo a e => SDo (rename_in h a) (rename h e)
  | SEach x e a => SEach x (rename h e) (rename_in h a)
  | SSwitch e a => SSwitch (rename h e) (rename_in h a)
  | SCase l a b => SCase l (rename_in h a) (rename_in h b)
  | SReturn e => SReturn (option_map (rename h) e)
  end.

(* ---------------------------------------------------------------- the program *)

Record parsed := { d_program : program; d_texts : list (string * expr) }.

Fixpoint items (c : configuration) (files : list (string * list string)) : option (list (string * item)) :=
  match files with
  | [] => Some []
  | (f, text) :: files' =>
    match parse_file c text, items c files' with
    | Some l, Some r => Some (map (pair f) l ++ r)
    | _, _ => None
    end
  end.

Definition entry_of (i : string * item) : list entry :=
  match i with
  | (f, IFunction d) => [{| e_file := f; e_fun := d; e_defined := true |}]
  | (f, IDeclared d) => [{| e_file := f; e_fun := d; e_defined := false |}]
  | _ => []
  end.

(* the functions with a body, each with the names of the calls in it that see less than everything;
   [before]: the entries before these, the last first *)
Fixpoint looked_over (enums : list string) (before all l : list entry) : list (entry * list string * list entry) :=
  match l with
  | [] => []
  | e :: l' =>
    let before := before ++ [e] in
    let rest := looked_over enums before all l' in
    if e_defined e then
      let calls := fst (calls_of enums (map (fun p => (p_name p, p_ty p)) (f_params (e_fun e))) (f_body (e_fun e))) in
      (e, map fst (filter (matters before all (e_file e)) calls), before) :: rest
    else rest
  end.

Definition finished (x : entry * list string * list entry) : fundef :=
  match x with (e, fs, before) =>
    let d := completed before (e_fun e) in
    {| f_name := f_name d; f_params := f_params d; f_ret := f_ret d;
       f_body := rename_in (fun f => if among fs f then own_name d f else f) (f_body d) |}
  end.

(* the functions such a call sees, under its name *)
Definition seen_by (funs : list fundef) (x : entry * list string * list entry) : list fundef :=
  match x with (e, fs, before) =>
    flat_map (fun f =>
      map (seen_as (own_name (e_fun e) f))
        (filter (fun d => String.eqb (f_name d) f && existsb (fun e' => seen (e_file e) e' && same_key d (e_fun e')) before) funs)) fs
  end.

Fixpoint is_operator (s : string) : bool :=
  match s with EmptyString => false | String _ s' => String.eqb (substring 0 8 s) "operator" || is_operator s' end.

Definition compile (c : configuration) (files : list (string * list string)) : option parsed :=
  match items c files with
  | None => None
  | Some is =>
    let enums := flat_map (fun i => match snd i with IEnumerator x e => [(x, e)] | _ => [] end) is in
    let arrays := flat_map (fun i => match snd i with IArray x l => [(x, l)] | _ => [] end) is in
    let texts := flat_map (fun i => match snd i with IText x e => [(x, e)] | _ => [] end) is in
    let all := flat_map entry_of is in
    let over := looked_over (map fst enums) [] all all in
    let funs := map finished over in
    let undefined := filter (fun e => negb (e_defined e) && negb (is_operator (f_name (e_fun e)))
                                      && negb (existsb (same_key (e_fun e)) funs)) all in
    Some {| d_program := {| p_enums := enums; p_arrays := arrays; p_funs := funs ++ flat_map (seen_by funs) over;
                            p_decls := map e_fun undefined |};
            d_texts := texts |}
  end.
