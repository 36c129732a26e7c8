(* The whole library as it is linked: Gen/Source.v and the parsed files of one source/bits<N> directory.  Nothing
   is taken from anywhere else. *)
From Coq Require Import ZArith List Bool String.
From Verif Require Import Machine.
From Verif.Model Require Import Tables.
From Verif.Cxx Require Import Syntax Semantics Configurations.
From Verif.Gen Require Import Source.
From Verif.Gen Require Bits7 Bits8 Bits9 Bits10 Bits11 Bits12 Bits13 Bits14 Bits15 Bits16.
Import ListNotations.
Local Open Scope string_scope.
Local Open Scope list_scope.
Local Open Scope Z_scope.

(* CMakeLists.txt:134-160: which directory is compiled *)
Definition bits_of (v : version) : list fundef :=
  match v with
  | V7 => Bits7.functions | V8 => Bits8.functions | V9 => Bits9.functions | V10 => Bits10.functions
  | V11 => Bits11.functions | V12 => Bits12.functions | V13 => Bits13.functions | V14 => Bits14.functions
  | V15 => Bits15.functions | V16 => Bits16.functions
  end.

(* source/bits<N>/char_is_unicode.cxx:52, const utf8String supportedUnicodeVersion = "..." *)
Definition version_of (v : version) : expr :=
  match v with
  | V7 => Bits7.version | V8 => Bits8.version | V9 => Bits9.version | V10 => Bits10.version
  | V11 => Bits11.version | V12 => Bits12.version | V13 => Bits13.version | V14 => Bits14.version
  | V15 => Bits15.version | V16 => Bits16.version
  end.
Definition initialised (I : implementation) (a : expr) : value :=
  match (do (x, _) <- eval I no_calls [] a []; construct I None (TStr Char) [x]) with Done s => s | _ => VUnset end.

(* [basic.link]: a declaration and a definition in another file are the same function if name and parameter types agree *)
Definition same_type (a b : param) : bool :=
  match p_ty a, p_ty b with TI t, TI u => ity_eqb t u | _, _ => false end.
Fixpoint same_types (ps qs : list param) : bool :=
  match ps, qs with
  | [], [] => true
  | p :: ps', q :: qs' => same_type p q && same_types ps' qs'
  | _, _ => false
  end.
Definition same_function (d d' : fundef) : bool := String.eqb (f_name d) (f_name d') && same_types (f_params d) (f_params d').
Definition definition_of (unit : list fundef) (d : fundef) : option fundef := List.find (same_function d) unit.

Definition nothing (f : string) (vs : list value) : option value := None.

(* the functions [fs] and declarations [ds] of one part, the functions [unit] of the other; the other part calls only its own *)
Fixpoint run_linked (I : implementation) (G : list (string * value)) (fs ds unit : list fundef) (fuel depth : nat) : calls :=
  fun f vs =>
  match depth with
  | O => OutOfFuel
  | S depth =>
    match select (fs ++ ds) f vs with
    | None => Undefined
    | Some d =>
      match definition_of unit d with
      | Some d' => invoke I G (run I G nothing unit fuel depth) fuel d' vs
      | None => invoke I G (run_linked I G fs ds unit fuel depth) fuel d vs
      end
    end
  end.

Definition linked_globals (I : implementation) (v : version) : list (string * value) :=
  ("supportedUnicodeVersion", initialised I (version_of v)) :: globals I source.

(* the call f(vs) in the library built for version [v] *)
Definition linked (I : implementation) (v : version) (fuel depth : nat) : calls :=
  run_linked I (linked_globals I v) (functions (configured I)) (p_decls source) (bits_of v) fuel depth.

(* as [runs_to] *)
Definition linked_runs_to (I : implementation) (v : version) (f : string) (args : list value) (r : outcome value) : Prop :=
  exists n, forall fuel depth, (n <= fuel)%nat -> (n <= depth)%nat ->
  (do a <- linked I v fuel depth f args; Done (fst a)) = r.

(* as [leaves] of Spec/Source.v: what f leaves in its first argument, taken by reference *)
Definition linked_leaves (I : implementation) (v : version) (f : string) (args : list value) (r : outcome value) : Prop :=
  exists n, forall fuel depth, (n <= fuel)%nat -> (n <= depth)%nat ->
  (do a <- linked I v fuel depth f args; match snd a with Some v :: _ => Done v | _ => Undefined end) = r.

(* a character is a value of its type *)
Definition in_range (I : implementation) (v : value) : Prop :=
  match v with
  | VI t z => match t with Char | Char16 | Char32 => norm I t z = z | _ => True end
  | _ => True
  end.
