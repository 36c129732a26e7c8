(* main() of mkUnicodeTestData, from its text. *)
From Coq Require Import ZArith List Bool String Ascii Lia.
From Verif Require Import Machine.
From Verif.Model Require Import SplitJoin TestData TestMain Tables.
From Verif.Cxx Require Import Syntax Semantics FromText Tool ToolParser ToolText.
From Verif.Gen Require TextTool.
From Verif.Spec Require Import Source Text TestData.
From Verif.Proof Require Import Bits SplitFacts TestDataFacts CxxTool.
Import ListNotations.
Local Open Scope string_scope.
Local Open Scope list_scope.
Local Open Scope Z_scope.

(* ---------------------------------------------------------------- main() *)

(* what cerr gets with each exit code *)
Definition complaint (arg0 : list Z) (code : Z) : list Z :=
  if code =? 0 then []
  else (literal "Usage: " ++ arg0 ++ literal " <infile> <outfile>" ++ endl) ++
    (if code =? 1 then literal "    to convert ;-delimited Unicode data into an array of test data." ++ endl
     else literal "    infile does not exist." ++ endl).

(* the file process() reads *)
Definition given (w : world) (args : list (list Z)) : list Z :=
  match args with [infile; outfile] => read_all (readable w infile) (open_for_writing w outfile) infile | _ => [] end.

Lemma own_none I R k d f os s : f <> "process" -> f <> "main" -> own I R tool k d f os s = None.
Proof.
  intros Hp Hm. assert (E : List.find (fun d => String.eqb (t_name d) f) tool = None).
  { rewrite own_tool. cbn [List.find]. change (t_name process_fun) with "process". change (t_name main_fun) with "main".
    destruct (String.eqb_spec "process" f); [congruence|]. destruct (String.eqb_spec "main" f); [congruence|]. reflexivity. }
  destruct d; cbn [own]; rewrite E; reflexivity.
Qed.

Lemma own_process I R k d inb outb s file :
  (forall x, infix x file -> handled I R x) -> size file < 2 ^ 63 -> reading (files s) inb file -> holding outb [] = outb ->
  exists inb', (forall w', close inb' w' = w') /\ own I R tool k (S d) "process" [OBuffer inb; OBuffer outb] s =
    Some (do out <- process k file; Done (None, [Some (OBuffer inb'); Some (OBuffer Closed)], after s inb' outb out)).
Proof.
  intros Hh Hs Hr Ho.
  pose proof (process_does I R (own I R tool k d) (fun os s => own_none I R k d "getline" os s ltac:(discriminate) ltac:(discriminate))
    (fun os s => own_none I R k d "split" os s ltac:(discriminate) ltac:(discriminate)) file Hh Hs k s inb outb Hr Ho) as P.
  cbn [own]. change (List.find (fun d0 => String.eqb (t_name d0) "process") tool) with (Some process_fun).
  assert (B : bind_objects (t_params process_fun) [OBuffer inb; OBuffer outb] = Some [("inbuf", OBuffer inb); ("outbuf", OBuffer outb)]) by reflexivity.
  cbv iota beta. rewrite B. cbv iota beta. clear B.
  unfold processed in P. destruct (process k file) as [out| |]; [|exists Closed; split; [reflexivity|]; rewrite P; reflexivity..].
  destruct P as (inb' & e & Hc & E & L). exists inb'. split; [exact Hc|]. rewrite E. cbn [bind]. rewrite L. reflexivity.
Qed.

Ltac run := cbn -[norm size bits index_of literal call_of own endl process found_by_stat TestMain.put element app after].

Lemma el1 {A} (a b : A) l : element (a :: b :: l) 1 = Done b. Proof. reflexivity. Qed.
Lemma el2 {A} (a b c : A) l : element (a :: b :: c :: l) 2 = Done c. Proof. reflexivity. Qed.

Lemma started_does I R k d w arg0 args : size (arg0 :: args) < 2 ^ 31 ->
  (forall x, infix x (given w args) -> handled I R x) -> size (given w args) < 2 ^ 63 ->
  started I R k (S (S d)) w (arg0 :: args) (Some tool) =
  do (c, w') <- main k w args; Done (c, w', complaint arg0 c).
Proof.
  intros Ha Hh Hs. unfold started.
  assert (E : own I R tool k (S (S d)) "main" [OValue (VI Int (size (arg0 :: args))); OArguments (arg0 :: args)] {| vars := []; files := w; errors := [] |} =
    Some (do (r, s') <- texec I R (own I R tool k (S d)) k (t_body main_fun)
             {| vars := [("argc", OValue (VI Int (size (arg0 :: args)))); ("argv", OArguments (arg0 :: args))]; files := w; errors := [] |};
          let s' := tleave {| vars := [("argc", OValue (VI Int (size (arg0 :: args)))); ("argv", OArguments (arg0 :: args))]; files := w; errors := [] |} s' in
          match r with Left o => Done (Some o, [None; None], s') | _ => Done (None, [None; None], s') end)) by reflexivity.
  rewrite E. clear E. 
  pose proof (fun os s => own_none I R k (S d) "stat" os s ltac:(discriminate) ltac:(discriminate)) as no_stat.
  pose proof (fun inb outb s => own_process I R k d inb outb s (given w args) Hh Hs) as does_process.
  set (F := own I R tool k (S d)) in *. clearbody F.
  unfold main_fun, tool. cbn [nth t_body].
  rewrite t_seq, t_if.
  set (s0 := {| vars := _; files := w; errors := [] |}).
  assert (E : holds_true I R F (XBin Ne (XName "argc") (XInt 3)) s0 = Done (negb (size (arg0 :: args) =? 3), s0)).
  { unfold holds_true, s0. run. assert (0 <= size (arg0 :: args)) by (unfold size; lia). rewrite !norm_int by lia. reflexivity. }
  rewrite E. cbn [bind]. clear E.
  assert (U : size (arg0 :: args) <> 3 -> main k w args = Done (1, w)).
  { destruct args as [|a [|b [|c args]]]; intros H; [reflexivity..|now elim H|reflexivity]. }
  destruct (Z.eqb_spec (size (arg0 :: args)) 3) as [E3|N3]; cbn [negb].
  2:{ rewrite (U N3). unfold in_block, s0. run. unfold element. run. unfold complaint. run. rewrite <- !app_assoc. reflexivity. }
  clear U.
  assert (exists a b, args = [a; b]) as (infile & outfile & ->).
  { destruct args as [|a [|b [|c args]]]; unfold size in E3; cbn [List.length] in E3; try lia; now exists a, b. }
  change (in_block (texec I R F k YSkip) s0) with (Done (Onwards, s0)). cbn [bind].
  unfold s0. clear s0. set (argv := OArguments [arg0; infile; outfile]). set (argc := OValue (VI Int (size [arg0; infile; outfile]))).
  rewrite t_seq.
  match goal with |- context [texec I R F k (YDecl "stat" "statData" None) ?s] =>
    change (texec I R F k (YDecl "stat" "statData" None) s) with (Done (Onwards, declare s "statData" OStat)) end.
  cbn [bind]. rewrite t_seq.
  match goal with |- context [texec I R F k (YDecl "auto" "rc" ?e) ?s] =>
    assert (Er : texec I R F k (YDecl "auto" "rc" e) s = Done (Onwards, declare s "rc" (OValue (VI Int (if found_by_stat w infile then 0 else -1))))) end.
  { unfold argv, declare. run. rewrite el1. run. unfold call_of. rewrite no_stat. reflexivity. }
  rewrite Er. clear Er. cbn [bind].
  rewrite t_seq, t_if. cbn [main].
  match goal with |- context [holds_true I R F (XBin Ne (XName "rc") (XInt 0)) ?s] =>
    replace (holds_true I R F (XBin Ne (XName "rc") (XInt 0)) s) with (Done (negb (found_by_stat w infile), s))
      by (unfold holds_true, declare; run; rewrite !norm_int by (destruct (found_by_stat w infile); lia); now destruct (found_by_stat w infile)) end.
  cbn [bind]. destruct (found_by_stat w infile); cbn [negb].
  2:{ match goal with |- context [in_block (texec I R F k ?a) ?s] =>
        assert (B : in_block (texec I R F k a) s = Done (Left (OValue (VI Int 2)), {| vars := vars s; files := w; errors := complaint arg0 2 |})) end.
      { unfold in_block, declare, argv. run. unfold element. run. unfold complaint. run. rewrite <- !app_assoc. reflexivity. }
      rewrite B. reflexivity. }
  match goal with |- context [in_block (texec I R F k YSkip) ?s] => change (in_block (texec I R F k YSkip) s) with (Done (Onwards, s)) end.
  cbn [bind]. rewrite t_seq.
  match goal with |- context [texec I R F k (YDecl "bool" "opened1" ?e) ?s] =>
    change (texec I R F k (YDecl "bool" "opened1" e) s) with (Done (Onwards, declare s "opened1" (OValue (VB false)))) end.
  cbn [bind]. rewrite t_seq.
  match goal with |- context [texec I R F k (YDecl "bool" "opened2" ?e) ?s] =>
    change (texec I R F k (YDecl "bool" "opened2" e) s) with (Done (Onwards, declare s "opened2" (OValue (VB false)))) end.
  cbn [bind]. rewrite t_seq.
  set (s1 := declare (declare _ "opened1" _) "opened2" _).
  match goal with |- context [texec I R F k (YTry ?a ?b) s1] =>
    change (texec I R F k (YTry a b) s1) with (in_block (texec I R F k a) s1);
    assert (T : in_block (texec I R F k a) s1 =
      do out <- process k (given w [infile; outfile]);
      Done (Onwards, {| vars := [("opened2", OValue (VB true)); ("opened1", OValue (VB true)); ("rc", OValue (VI Int 0)); ("statData", OStat); ("argc", argc); ("argv", argv)];
                        files := write_all (writable w outfile) (open_for_writing w outfile) outfile out; errors := [] |}))
  end.
  2:{ rewrite T. change (read_all (readable w infile) (open_for_writing w outfile) infile) with (given w [infile; outfile]).
      destruct (process k (given w [infile; outfile])); reflexivity. }
  unfold in_block.
  rewrite t_seq. match goal with |- context [texec I R F k (YDecl "filebuf" "inBuf" None) ?s] =>
    change (texec I R F k (YDecl "filebuf" "inBuf" None) s) with (Done (Onwards, declare s "inBuf" (OBuffer Closed))) end.
  cbn [bind]. rewrite t_seq.
  set (inb := if readable w infile then Reads infile 0 else Closed).
  match goal with |- context [texec I R F k (YExpr (XMeth (XName "inBuf") "open" ?l)) ?s] =>
    assert (O1 : texec I R F k (YExpr (XMeth (XName "inBuf") "open" l)) s = Done (Onwards, declare s1 "inBuf" (OBuffer inb))) end.
  { unfold s1, argv, declare. cbn -[element open]. rewrite el1. cbn. unfold inb. destruct (readable w infile); reflexivity. }
  rewrite O1. clear O1. cbn [bind].
  rewrite t_seq. match goal with |- context [texec I R F k (YExpr (XAssign "opened1" ?b)) ?s] =>
    change (texec I R F k (YExpr (XAssign "opened1" b)) s) with (Done (Onwards, assign s "opened1" (OValue (VB true)))) end.
  cbn [bind]. rewrite t_seq.
  match goal with |- context [texec I R F k (YDecl "filebuf" "outBuf" None) ?s] =>
    change (texec I R F k (YDecl "filebuf" "outBuf" None) s) with (Done (Onwards, declare s "outBuf" (OBuffer Closed))) end.
  cbn [bind]. rewrite t_seq.
  set (outb := if writable w outfile then Writes outfile [] else Closed).
  match goal with |- context [texec I R F k (YExpr (XMeth (XName "outBuf") "open" ?l)) (declare ?s ?x ?o)] =>
    assert (O2 : texec I R F k (YExpr (XMeth (XName "outBuf") "open" l)) (declare s x o) =
      Done (Onwards, with_files (declare s "outBuf" (OBuffer outb)) (open_for_writing w outfile))) end.
  { unfold s1, argv, declare. cbn -[element open]. rewrite el2. cbn. unfold outb, open_for_writing. destruct (writable w outfile); reflexivity. }
  rewrite O2. clear O2. cbn [bind].
  rewrite t_seq. match goal with |- context [texec I R F k (YExpr (XAssign "opened2" ?b)) ?s] =>
    change (texec I R F k (YExpr (XAssign "opened2" b)) s) with (Done (Onwards, assign s "opened2" (OValue (VB true)))) end.
  cbn [bind]. rewrite t_seq.
  match goal with |- context [texec I R F k (YExpr (XCall "process" ?l)) ?s] =>
    destruct (does_process inb outb s) as (inb' & Hc & P);
      [ | unfold outb; now destruct (writable w outfile) |
      assert (C : texec I R F k (YExpr (XCall "process" l)) s =
       do out <- process k (given w [infile; outfile]);
       Done (Onwards, assign (assign (with_files s (close (holding outb out) (files s))) "inBuf" (OBuffer inb')) "outBuf" (OBuffer Closed))) ] end.
  { unfold s1, declare, inb, assign, given, read_all. cbn [files with_vars with_files reading]. destruct (readable w infile); reflexivity. }
  { cbn -[call_of process given]. unfold call_of. cbn -[process given after] in P |- *. rewrite P.
    destruct (process k (given w [infile; outfile])) as [out| |]; [|reflexivity..]. reflexivity. }
  rewrite C. clear C. destruct (process k (given w [infile; outfile])) as [out| |]; [|reflexivity..].
  unfold write_all. cbn. rewrite Hc. unfold outb. destruct (writable w outfile); reflexivity.
Qed.
