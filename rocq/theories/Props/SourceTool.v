(* C106: mkUnicodeTestData from its text, linked with the text of the library *)
From Coq Require Import ZArith List Bool String.
From Verif Require Import Machine.
From Verif.Model Require Import Tables TestMain.
From Verif.Cxx Require Import Syntax Semantics Tool ToolParser ToolText.
From Verif.Gen Require TextTool.
From Verif.Spec Require Import Source Text TestData.
From Verif.Proof Require Import TestDataFacts TestMainFacts CxxTool CxxToolMain CxxToolEnd.
Import ListNotations.
Local Open Scope string_scope.
Local Open Scope list_scope.
Local Open Scope Z_scope.

(* the file is read the same in every configuration: two functions *)
Theorem C106_program : forall c, exists process main, parse_tool c TextTool.mkUnicodeTestData_cxx = Some [process; main] /\
  t_name process = "process" /\ t_name main = "main".
Proof. exact tool_program. Qed.
Print Assumptions C106_program.

(* main() of the text is main() of Model/TestMain.v, and this is what it writes to cerr ([complaint]); with enough fuel for the
   loops and calls of the library, and as many rounds of the loop of process() as the model is given *)
Theorem C106_main : forall I v w arg0 args, size (arg0 :: args) < 2 ^ 31 -> (forall n, holds (content w n)) ->
  exists n, forall rounds fuel depth, (n <= fuel)%nat -> (n <= depth)%nat ->
    tool_main I v rounds fuel depth w (arg0 :: args) = do (c, w') <- main rounds w args; Done (c, w', complaint arg0 c).
Proof. exact tool_does. Qed.
Print Assumptions C106_main.

Theorem C106_refuses : forall I v w arg0, (forall n, holds (content w n)) ->
  (forall args, size (arg0 :: args) < 2 ^ 31 -> List.length args <> 2%nat ->
     tool_gives I v w (arg0 :: args) (Done (1, w, chars "Usage: " ++ arg0 ++ chars " <infile> <outfile>" ++ [10] ++
       chars "    to convert ;-delimited Unicode data into an array of test data." ++ [10]))) /\
  (forall i o, found_by_stat w i = false ->
     tool_gives I v w [arg0; i; o] (Done (2, w, chars "Usage: " ++ arg0 ++ chars " <infile> <outfile>" ++ [10] ++
       chars "    infile does not exist." ++ [10]))).
Proof. exact tool_refuses. Qed.
Print Assumptions C106_refuses.

(* lines of UnicodeData.txt in infile, the array of their codes in outfile *)
Theorem C106_converts : forall I v w arg0 i o es cs rest, (forall n, holds (content w n)) ->
  i <> o -> found_by_stat w i = true -> readable w i = true -> writable w o = true ->
  content w i = file es ++ rest -> Forall entry_ok es -> es <> [] -> Z.of_nat (List.length es) <= 0x7fffffff ->
  listing es cs -> stop rest ->
  exists w', tool_gives I v w [arg0; i; o] (Done (0, w', [])) /\ visible (content w' o) = array_of cs /\ found_by_stat w' o = true /\
    forall n, n <> o -> content w' n = content w n /\ found_by_stat w' n = found_by_stat w n.
Proof. exact tool_converts. Qed.
Print Assumptions C106_converts.

Theorem C106_codes : forall I v w arg0 args c w' err, size (arg0 :: args) < 2 ^ 31 -> (forall n, holds (content w n)) ->
  tool_gives I v w (arg0 :: args) (Done (c, w', err)) ->
  c = 1 /\ w' = w /\ List.length args <> 2%nat \/
  c = 2 /\ w' = w /\ (exists i o, args = [i; o] /\ found_by_stat w i = false) \/
  c = 0 /\ err = [] /\ exists i o, args = [i; o] /\ found_by_stat w i = true.
Proof. exact tool_codes. Qed.
Print Assumptions C106_codes.

(* what C67 says of the model; without the newline see C106_never_ends *)
Theorem C106_ends : forall I v w arg0 i o, (forall n, holds (content w n)) -> i <> o -> newline_terminated (content w i) ->
  exists r, r <> OutOfFuel /\ tool_gives I v w [arg0; i; o] r.
Proof. exact tool_ends. Qed.
Print Assumptions C106_ends.

(* the faults of C67, C68 and C84, of the text *)
Theorem C106_never_ends : forall I v w arg0 i o es e, (forall n, holds (content w n)) -> i <> o -> found_by_stat w i = true -> readable w i = true ->
  content w i = file es ++ line e -> Forall entry_ok es -> Z.of_nat (List.length es) <= 0x7fffffff -> entry_ok e ->
  tool_returns_nothing I v w [arg0; i; o].
Proof. exact tool_never_ends. Qed.
Print Assumptions C106_never_ends.

Theorem C106_undefined : forall I v w arg0 i o es cs bad junk, (forall n, holds (content w n)) -> i <> o ->
  found_by_stat w i = true -> readable w i = true ->
  content w i = file es ++ bad ++ 10 :: junk -> Forall entry_ok es -> listing es cs -> Z.of_nat (List.length es) <= 0x7fffffff ->
  ~ In 10 bad -> ~ In 59 bad -> 10 < Z.of_nat (List.length bad) ->
  tool_gives I v w [arg0; i; o] Undefined.
Proof. exact tool_undefined. Qed.
Print Assumptions C106_undefined.

Theorem C106_not_opened : forall I v w arg0, (forall n, holds (content w n)) ->
  (forall i o c w' err, found_by_stat w i = true -> writable w o = false ->
     tool_gives I v w [arg0; i; o] (Done (c, w', err)) -> c = 0 /\ w' = w /\ err = []) /\
  (forall i o, found_by_stat w i = true -> readable w i = false -> writable w o = true ->
     exists w', tool_gives I v w [arg0; i; o] (Done (0, w', [])) /\ content w' o = []) /\
  (forall f, found_by_stat w f = true -> writable w f = true ->
     exists w', tool_gives I v w [arg0; f; f] (Done (0, w', [])) /\ content w' f = []).
Proof. exact tool_not_opened. Qed.
Print Assumptions C106_not_opened.

Theorem C106_silent_failure : exists w i o, (forall n, holds (content w n)) /\ found_by_stat w i = true /\ readable w i = true /\
  writable w o = false /\ forall I v arg0, tool_gives I v w [arg0; i; o] (Done (0, w, [])).
Proof. exact tool_silent_refuted. Qed.
Print Assumptions C106_silent_failure.

(* a small program (Proof/CxxToolEnd.v, [tiny]), and a file of one line *)
Example C106_case : parse_tool Wchar32 tiny = Some [{| t_name := "main"; t_params := [("argc", false); ("argv", false)];
    t_body := YSeq (YDecl "int" "n" (Some (XInt 0))) (YSeq (YWhile (XBin Gt (XName "argc") (XName "n")) (YExpr (XPreInc "n"))) (YReturn (XInt 7))) |}] /\
  (forall n, holds (content free_world n)) /\
  forall I v, exists w', tool_gives I v free_world [chars "tool"; chars "in"; chars "out"] (Done (0, w', [])) /\
    content w' (chars "out") = chars "char32_t validUnicodeCodePoints[] = {" ++ [10] ++ chars "     0x0041, 0xFFFFFFFF };" ++ [10] /\
    content w' (chars "in") = file [letter].
Proof. exact case_tool. Qed.
