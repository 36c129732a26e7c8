(** /repo/submods/CMakeLists.txt, which brings googletest in, run as it stands (lines 36-63): the
    reader is that of Model/Lists.v, with foreach() as commands of their own.

    Simplified:
    - A directory that is added gets the variables and options of that moment; what
      it does with them (its own option() for BUILD_SHARED_LIBS, say) is not looked into.
    - Of if() only a variable and NOT ( TARGET .. OR TARGET .. ) are known. *)
From Coq Require Import List Bool String Ascii.
From Verif Require Import Model.Make Model.Cmake Model.Lists.
Import ListNotations.
Open Scope string_scope.
Open Scope list_scope.

(** The variables of the directory above and of the cache, and the targets there are *)
Record above := { has : string -> option string; target : string -> bool }.

(** What has been set, the newest first, over what there was before *)
Record values := { news : list (string * option string); before : string -> option string }.

Fixpoint looked_up (l : list (string * option string)) (o : string -> option string) (x : string) : option string :=
  match l with
  | [] => o x
  | (n, v) :: l => if String.eqb x n then v else looked_up l o x
  end.
Definition value_of (v : values) (x : string) : option string := looked_up (news v) (before v) x.

Record added := { name : string; with_values : values; with_options : list string }.
Record here := { values_of : values; options : list string; dirs : list added }.

Definition vars (s : here) (x : string) : option string := value_of (values_of s) x.
Definition with_vars (d : added) (x : string) : option string := value_of (with_values d) x.

Inductive result := Done (s : here) | Unclear.

Definition put (n : string) (v : option string) (s : here) : here :=
  {| values_of := {| news := (n, v) :: news (values_of s); before := before (values_of s) |}; options := options s; dirs := dirs s |}.
Definition set_var (n v : string) (s : here) : here := put n (Some v) s.

Definition piece_text (s : here) (p : piece) : string :=
  match p with
  | Lit x => x
  | Var n => text (vars s n)
  | Deref n => text (vars s (text (vars s n)))
  | Env _ => ""
  end.

Definition arg_values (s : here) (a : arg) : list string :=
  let v := String.concat "" (map (piece_text s) (pieces a)) in
  if quoted a then [v]
  else match pieces a with [Lit x] => [x] | _ => elements v end.

Definition arg_list (s : here) (l : list arg) : list string := flat_map (arg_values s) l.

(** string( REPLACE ) *)
Fixpoint replace_all (fuel : nat) (a b s : string) : string :=
  match fuel with
  | O => s
  | S fuel =>
      match s with
      | EmptyString => EmptyString
      | String c rest =>
          if String.prefix a s then (b ++ replace_all fuel a b (substring (String.length a) (String.length s) s))%string
          else String c (replace_all fuel a b rest)
      end
  end.
Definition replaced (a b s : string) : string := replace_all (S (String.length s)) a b s.

(** set() of more than one value makes a list. *)
Definition one_command (n : string) (a : list string) (s : here) : result :=
  if String.eqb n "set" then
    match a with x :: y :: v => Done (set_var x (String.concat ";" (y :: v)) s) | _ => Unclear end
  else if String.eqb n "add_compile_options" then Done {| values_of := values_of s; options := options s ++ a; dirs := dirs s |}
  else if String.eqb n "add_subdirectory" then
    match a with
    | [d] => Done {| values_of := values_of s; options := options s; dirs := dirs s ++ [{| name := d; with_values := values_of s; with_options := options s |}] |}
    | _ => Unclear
    end
  else if String.eqb n "string" then
    match a with
    | ["REPLACE"; x; y; v; i] => Done (set_var v (replaced x y i) s)
    | _ => Unclear
    end
  else Unclear.

Definition judged (w : above) (c : list arg) (s : here) : option bool :=
  match map (fun a => (quoted a, pieces a)) c with
  | [(false, [Lit v])] => Some (truth (text (vars s v)))
  | [(false, [Lit "NOT"]); (false, [Lit "("]); (false, [Lit "TARGET"]); (true, [Lit a]); (false, [Lit "OR"]); (false, [Lit "TARGET"]); (true, [Lit b]);
     (false, [Lit ")"])] => Some (negb (target w a || target w b))
  | _ => None
  end.

(** The commands up to endforeach() and what comes after it *)
Fixpoint body_of (b : block) : option (list (string * list arg) * block) :=
  match b with
  | Do "endforeach" _ rest => Some ([], rest)
  | Do n a rest => match body_of rest with Some (l, r) => Some ((n, a) :: l, r) | None => None end
  | _ => None
  end.

Fixpoint do_all (l : list (string * list arg)) (s : here) : result :=
  match l with
  | [] => Done s
  | (n, a) :: l => match one_command n (arg_list s a) s with Done s => do_all l s | Unclear => Unclear end
  end.

Fixpoint for_each (v : string) (l : list string) (body : list (string * list arg)) (s : here) : result :=
  match l with
  | [] => Done s
  | x :: l => match do_all body (set_var v x s) with Done s => for_each v l body s | Unclear => Unclear end
  end.

(** After foreach() its variable is what it was. *)
Definition back (v : string) (s s' : here) : here := put v (vars s v) s'.

Fixpoint run_block (fuel : nat) (w : above) (b : block) (s : here) : result :=
  match fuel with
  | O => Unclear
  | S fuel =>
      match b with
      | Nil => Done s
      | Do n a rest =>
          if String.eqb n "foreach" then
            match arg_list s a, body_of rest with
            | v :: l, Some (body, rest) => match for_each v l body s with Done s' => run_block fuel w rest (back v s s') | Unclear => Unclear end
            | _, _ => Unclear
            end
          else match one_command n (arg_list s a) s with Done s => run_block fuel w rest s | Unclear => Unclear end
      | If c x y rest =>
          match judged w c s with
          | Some t => match run_block fuel w (if t then x else y) s with Done s => run_block fuel w rest s | Unclear => Unclear end
          | None => Unclear
          end
      | Fun _ _ _ _ => Unclear
      end
  end.

Definition run_submods (lines : list string) (w : above) : result :=
  match read_lists lines with
  | Some b => run_block 100 w b {| values_of := {| news := []; before := has w |}; options := []; dirs := [] |}
  | None => Unclear
  end.
