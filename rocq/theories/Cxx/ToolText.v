(* mkUnicodeTestData as its text says (Gen/TextTool.v), linked with the library as its text says. *)
From Coq Require Import ZArith List String.
From Verif Require Import Machine.
From Verif.Model Require Import Tables.
From Verif.Model Require TestMain.
From Verif.Cxx Require Import Syntax Semantics Lexer Parser Compile FromText Tool ToolParser.
From Verif.Gen Require TextTool.
Import ListNotations.
Local Open Scope string_scope.
Local Open Scope list_scope.
Local Open Scope Z_scope.

(* [basic.start.main]: argc and argv; without a return main() returns 0 *)
Definition started (I : implementation) (R : calls) (rounds depth : nat) (w : TestMain.world) (argv : list (list Z)) (P : option (list tfun))
  : outcome (Z * TestMain.world * list Z) :=
  match P with
  | Some P =>
    match own I R P rounds depth "main" [OValue (VI Int (size argv)); OArguments argv] {| vars := []; files := w; errors := [] |} with
    | Some m =>
      do (r, _, s) <- m;
      match r with
      | Some (OValue (VI Int z)) => Done (z, files s, errors s)
      | None => Done (0, files s, errors s)
      | _ => Undefined
      end
    | None => Undefined
    end
  | None => Undefined
  end.

(* the exit code, the files afterwards and what is written to cerr; at most [rounds] rounds of a loop of the tool, [fuel] of
   one of the library *)
Definition tool_main (I : implementation) (v : version) (rounds fuel depth : nat) (w : TestMain.world) (argv : list (list Z))
  : outcome (Z * TestMain.world * list Z) :=
  started I (text_call I v fuel depth) rounds depth w argv (parse_tool (configured I) TextTool.mkUnicodeTestData_cxx).

(* main() ends in [r] *)
Definition tool_gives (I : implementation) (v : version) (w : TestMain.world) (argv : list (list Z)) (r : outcome (Z * TestMain.world * list Z)) : Prop :=
  exists n, forall rounds fuel depth, (n <= rounds)%nat -> (n <= fuel)%nat -> (n <= depth)%nat -> tool_main I v rounds fuel depth w argv = r.
(* main() does not return, however many rounds its loops are given *)
Definition tool_returns_nothing (I : implementation) (v : version) (w : TestMain.world) (argv : list (list Z)) : Prop :=
  exists n, forall rounds fuel depth, (n <= fuel)%nat -> (n <= depth)%nat -> forall r, tool_main I v rounds fuel depth w argv <> Done r.
