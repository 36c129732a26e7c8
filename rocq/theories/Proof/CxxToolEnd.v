(* mkUnicodeTestData from its text, linked with the text of the library. *)
From Coq Require Import ZArith List Bool String Ascii Lia.
From Verif Require Import Machine.
From Verif.Model Require Import SplitJoin TestData TestMain Tables.
From Verif.Cxx Require Import Syntax Semantics Program Values Linked FromText Tool ToolParser ToolText.
From Verif.Gen Require TextTool.
From Verif.Spec Require Import Utf Source Text TestData.
From Verif.Proof Require Import Bits SplitFacts TestDataFacts TestMainFacts CxxTools CxxMore CxxWhole CxxText CxxTool CxxToolMain.
Import ListNotations.
Local Open Scope string_scope.
Local Open Scope list_scope.
Local Open Scope Z_scope.

(* ---------------------------------------------------------------- enough fuel for every line of a file *)

Lemma for_prefixes (P : list Z -> nat -> Prop) l : (forall x, (exists b, l = x ++ b) -> exists n, forall m, (n <= m)%nat -> P x m) ->
  exists n, forall x m, (exists b, l = x ++ b) -> (n <= m)%nat -> P x m.
Proof.
  revert P. induction l as [|c l IH]; intros P H.
  - destruct (H [] ltac:(now exists [])) as (n & Hn). exists n. intros x m (b & E) Hm. destruct x; [now apply Hn|discriminate].
  - destruct (H [] ltac:(now exists (c :: l))) as (n & Hn).
    destruct (IH (fun x => P (c :: x))) as (k & Hk); [intros x (b & ->); apply H; now exists b|].
    exists (n + k)%nat. intros [|y x] m (b & E) Hm; [apply Hn; lia|]. injection E as <- E. apply Hk; [now exists b|lia].
Qed.

Lemma for_infixes (P : list Z -> nat -> Prop) l : (forall x, infix x l -> exists n, forall m, (n <= m)%nat -> P x m) ->
  exists n, forall x m, infix x l -> (n <= m)%nat -> P x m.
Proof.
  revert P. induction l as [|c l IH]; intros P H.
  - destruct (H [] (infix_nil _)) as (n & Hn). exists n. intros x m (a & b & E) Hm.
    destruct a; [|discriminate]. destruct x; [now apply Hn|discriminate].
  - destruct (for_prefixes P (c :: l)) as (n & Hn); [intros x (b & E); apply H; now exists [], b|].
    destruct (IH P) as (k & Hk); [intros x (a & b & ->); apply H; now exists (c :: a), b|].
    exists (n + k)%nat. intros x m (a & b & E) Hm. destruct a as [|y a]; [apply Hn; [now exists b|lia]|].
    injection E as <- E. apply Hk; [now exists a, b|lia].
Qed.

Lemma split_fuel s d : split s d <> OutOfFuel.
Proof. destruct s; [discriminate|]. rewrite split_spec by discriminate. now destruct (_ <? _). Qed.

Lemma text_split I v x : holds x -> text_runs_to I v "split" [VS Char x; VI Char (norm I Char 59)] (strings_of Char (split x 59)).
Proof.
  intros H. apply text_runs, l_transfer.
  - constructor; [exact Logic.I|]. constructor; [|constructor]. cbn. unfold norm. cbn [is_signed]. destruct (char_signed I); reflexivity.
  - unfold strings_of. pose proof (split_fuel x 59). now destruct (split x 59).
  - apply (proj1 (all_split I (tables v))); [unfold byte; lia|exact H].
Qed.

Lemma text_handles I v file : holds file ->
  exists n, forall fuel depth, (n <= fuel)%nat -> (n <= depth)%nat -> forall x, infix x file -> handled I (text_call I v fuel depth) x.
Proof.
  intros H.
  destruct (for_infixes (fun x m => forall fuel depth, (m <= fuel)%nat -> (m <= depth)%nat -> handled I (text_call I v fuel depth) x) file) as (n & Hn).
  - intros x Hx. destruct (text_split I v x) as (n & Hn); [apply infix_size in Hx; unfold holds in *; lia|].
    exists n. intros m Hm fuel depth Hf Hd. apply Hn; lia.
  - exists n. intros fuel depth Hf Hd x Hx. exact (Hn x n Hx (le_n _) fuel depth Hf Hd).
Qed.

(* ---------------------------------------------------------------- main() *)

Lemma given_holds w args : (forall n, holds (content w n)) -> holds (given w args).
Proof.
  intros H. assert (holds []) by (unfold holds, size; cbn; lia).
  destruct args as [|a [|b [|c args]]]; try exact H0. cbn [given]. unfold read_all, open_for_writing.
  destruct (readable w a); [|exact H0]. destruct (writable w b); [|apply H]. cbn [content TestMain.put]. destruct (same_name a b); [exact H0|apply H].
Qed.

Lemma tool_does I v w arg0 args : size (arg0 :: args) < 2 ^ 31 -> (forall n, holds (content w n)) ->
  exists n, forall rounds fuel depth, (n <= fuel)%nat -> (n <= depth)%nat ->
    tool_main I v rounds fuel depth w (arg0 :: args) = do (c, w') <- main rounds w args; Done (c, w', complaint arg0 c).
Proof.
  intros Ha Hw. pose proof (given_holds w args Hw) as Hg.
  destruct (text_handles I v (given w args) Hg) as (n & Hn). exists (S (S n)). intros rounds fuel depth Hf Hd.
  destruct depth as [|[|d]]; [lia..|]. unfold tool_main. rewrite tool_text.
  apply started_does; [exact Ha | apply Hn; lia | exact Hg].
Qed.

Lemma loop_more k : forall l fs s n out k', process_loop k l fs s n out <> OutOfFuel -> (k <= k')%nat ->
  process_loop k' l fs s n out = process_loop k l fs s n out.
Proof.
  induction k as [|k IH]; intros l fs s n out k' H Hk; [now elim H|]. destruct k' as [|k']; [lia|].
  cbn [process_loop] in *. destruct (_ >? 10); [|reflexivity].
  destruct (TestData.field fs 1) as [nm| |]; cbn [bind] in *; [|reflexivity..].
  destruct (getline s l) as (l', s'). destruct (_ || _).
  - destruct (split l' semicolon); cbn [bind] in *; [|reflexivity..]. apply IH; [exact H|lia].
  - destruct (TestData.field fs 0); cbn [bind] in *; [|reflexivity..]. destruct (split l' semicolon); cbn [bind] in *; [|reflexivity..].
    destruct (int_incr n); cbn [bind] in *; [|reflexivity..]. apply IH; [exact H|lia].
Qed.
Lemma process_more k f k' : process k f <> OutOfFuel -> (k <= k')%nat -> process k' f = process k f.
Proof.
  unfold process. destruct (getline _ []) as (l, s). destruct (split l semicolon) as [[|x fs]| |]; cbn [bind]; [reflexivity| |reflexivity..].
  intros H Hk. rewrite (loop_more k); [reflexivity| |exact Hk].
  intros E. rewrite E in H. now apply H.
Qed.
Lemma main_more k w args k' : main k w args <> OutOfFuel -> (k <= k')%nat -> main k' w args = main k w args.
Proof.
  destruct args as [|i [|o [|x args]]]; cbn [main]; try reflexivity. destruct (negb _); [reflexivity|].
  intros H Hk. rewrite (process_more k); [reflexivity| |exact Hk]. intros E. rewrite E in H. now apply H.
Qed.

(* what the model gives is what the text gives *)
Lemma tool_gives_model I v w arg0 args k : size (arg0 :: args) < 2 ^ 31 -> (forall n, holds (content w n)) ->
  main k w args <> OutOfFuel ->
  tool_gives I v w (arg0 :: args) (do (c, w') <- main k w args; Done (c, w', complaint arg0 c)).
Proof.
  intros Ha Hw Hr. destruct (tool_does I v w arg0 args Ha Hw) as (n & Hn). exists (n + k)%nat. intros rounds fuel depth Hk Hf Hd.
  rewrite Hn by lia. rewrite (main_more k) by (exact Hr || lia). reflexivity.
Qed.
Lemma tool_gives_done I v w arg0 args k c w' : size (arg0 :: args) < 2 ^ 31 -> (forall n, holds (content w n)) ->
  main k w args = Done (c, w') -> tool_gives I v w (arg0 :: args) (Done (c, w', complaint arg0 c)).
Proof. intros Ha Hw E. pose proof (tool_gives_model I v w arg0 args k Ha Hw) as H. rewrite E in H. apply H. discriminate. Qed.

Lemma two_arguments (arg0 i o : list Z) : size [arg0; i; o] < 2 ^ 31. Proof. reflexivity. Qed.

Lemma tool_usage I v w arg0 args : size (arg0 :: args) < 2 ^ 31 -> (forall n, holds (content w n)) -> List.length args <> 2%nat ->
  tool_gives I v w (arg0 :: args) (Done (1, w, chars "Usage: " ++ arg0 ++ chars " <infile> <outfile>" ++ [10] ++
    chars "    to convert ;-delimited Unicode data into an array of test data." ++ [10])).
Proof.
  intros Ha Hw Hl. pose proof (tool_gives_done I v w arg0 args 0 _ _ Ha Hw (main_usage 0 w args Hl)) as H.
  unfold complaint in H. cbn [Z.eqb Pos.eqb] in H. rewrite <- !app_assoc in H. exact H.
Qed.

Lemma tool_missing I v w arg0 i o : (forall n, holds (content w n)) -> found_by_stat w i = false ->
  tool_gives I v w [arg0; i; o] (Done (2, w, chars "Usage: " ++ arg0 ++ chars " <infile> <outfile>" ++ [10] ++
    chars "    infile does not exist." ++ [10])).
Proof.
  intros Hw Hl. pose proof (tool_gives_done I v w arg0 [i; o] 0 _ _ (two_arguments _ _ _) Hw (main_missing 0 w i o Hl)) as H.
  unfold complaint in H. cbn [Z.eqb Pos.eqb] in H. rewrite <- !app_assoc in H. exact H.
Qed.

Lemma tool_converts I v w arg0 i o es cs rest : (forall n, holds (content w n)) ->
  i <> o -> found_by_stat w i = true -> readable w i = true -> writable w o = true ->
  content w i = file es ++ rest -> Forall entry_ok es -> es <> [] -> Z.of_nat (List.length es) <= 0x7fffffff ->
  listing es cs -> stop rest ->
  exists w', tool_gives I v w [arg0; i; o] (Done (0, w', [])) /\ visible (content w' o) = array_of cs /\ found_by_stat w' o = true /\
    forall n, n <> o -> content w' n = content w n /\ found_by_stat w' n = found_by_stat w n.
Proof.
  intros Hw Hio Hf Hr Hwr Hc He Hne Hl Hcs Hs.
  destruct (main_converts (S (List.length es)) w i o es cs rest Hio Hf Hr Hwr Hc He Hne Hl Hcs Hs (Nat.lt_succ_diag_r _)) as (w' & M & A & B).
  exists w'. split; [|now split]. exact (tool_gives_done I v w arg0 [i; o] _ 0 w' (two_arguments _ _ _) Hw M).
Qed.

(* the exit code, and what is left to the caller *)
Lemma tool_codes I v w arg0 args c w' err : size (arg0 :: args) < 2 ^ 31 -> (forall n, holds (content w n)) ->
  tool_gives I v w (arg0 :: args) (Done (c, w', err)) ->
  c = 1 /\ w' = w /\ List.length args <> 2%nat \/
  c = 2 /\ w' = w /\ (exists i o, args = [i; o] /\ found_by_stat w i = false) \/
  c = 0 /\ err = [] /\ exists i o, args = [i; o] /\ found_by_stat w i = true.
Proof.
  intros Ha Hw (n & Hn). destruct (tool_does I v w arg0 args Ha Hw) as (m & Hm).
  specialize (Hn (n + m)%nat (n + m)%nat (n + m)%nat ltac:(lia) ltac:(lia) ltac:(lia)). rewrite Hm in Hn by lia.
  destruct (main (n + m) w args) as [(c1, w1)| |] eqn:E; try discriminate Hn. cbn [bind] in Hn. injection Hn as -> -> <-.
  destruct (main_codes _ _ _ _ _ E) as [H|[H|(-> & H)]]; [left; exact H|right; left; exact H|right; right]. split; [reflexivity|]. split; [reflexivity|exact H].
Qed.

(* a file which exists and cannot be opened *)
Lemma tool_no_outfile I v w arg0 i o c w' err : (forall n, holds (content w n)) -> found_by_stat w i = true -> writable w o = false ->
  tool_gives I v w [arg0; i; o] (Done (c, w', err)) -> c = 0 /\ w' = w /\ err = [].
Proof.
  intros Hw Hf Ho (n & Hn). destruct (tool_does I v w arg0 [i; o] (two_arguments _ _ _) Hw) as (m & Hm).
  specialize (Hn (n + m)%nat (n + m)%nat (n + m)%nat ltac:(lia) ltac:(lia) ltac:(lia)). rewrite Hm in Hn by lia.
  destruct (main (n + m) w [i; o]) as [(c1, w1)| |] eqn:E; try discriminate Hn. cbn [bind] in Hn. injection Hn as -> -> <-.
  destruct (main_codes _ _ _ _ _ E) as [(_ & _ & H)|[(_ & _ & (i' & o' & [= <- <-] & H))|(-> & H)]]; [now elim H|congruence|].
  rewrite (main_no_outfile _ w i o w' Hf Ho E). repeat split.
Qed.
Lemma tool_no_infile I v w arg0 i o : (forall n, holds (content w n)) -> found_by_stat w i = true -> readable w i = false -> writable w o = true ->
  exists w', tool_gives I v w [arg0; i; o] (Done (0, w', [])) /\ content w' o = [].
Proof.
  intros Hw Hf Hr Ho. destruct (main_no_infile 0 w i o Hf Hr Ho) as (w' & M & C). exists w'. split; [|exact C].
  exact (tool_gives_done I v w arg0 [i; o] _ 0 w' (two_arguments _ _ _) Hw M).
Qed.
Lemma tool_same_file I v w arg0 f : (forall n, holds (content w n)) -> found_by_stat w f = true -> writable w f = true ->
  exists w', tool_gives I v w [arg0; f; f] (Done (0, w', [])) /\ content w' f = [].
Proof.
  intros Hw Hf Ho. destruct (main_same_file 0 w f Hf Ho) as (w' & M & C). exists w'. split; [|exact C].
  exact (tool_gives_done I v w arg0 [f; f] _ 0 w' (two_arguments _ _ _) Hw M).
Qed.

(* process() of a file which is not opened for writing *)
Lemma main_process k w i o : i <> o -> found_by_stat w i = true -> readable w i = true ->
  main k w [i; o] = do out <- process k (content w i); Done (0, write_all (writable w o) (open_for_writing w o) o out).
Proof.
  intros Hio Hf Hr. cbn [main]. rewrite Hf, Hr. cbn [negb read_all]. unfold open_for_writing at 1.
  destruct (writable w o); [|reflexivity]. cbn [content TestMain.put]. now rewrite same_name_other.
Qed.

Lemma tool_ends I v w arg0 i o : (forall n, holds (content w n)) -> i <> o -> newline_terminated (content w i) ->
  exists r, r <> OutOfFuel /\ tool_gives I v w [arg0; i; o] r.
Proof.
  intros Hw Hio Hn. set (k := S (List.length (content w i))).
  assert (E : main k w [i; o] <> OutOfFuel).
  { destruct (found_by_stat w i) eqn:Hf; [|rewrite main_missing by exact Hf; discriminate].
    destruct (readable w i) eqn:Hr.
    - rewrite main_process by assumption. pose proof (process_ends (content w i) k Hn (Nat.lt_succ_diag_r _)).
      now destruct (process k (content w i)).
    - cbn [main]. rewrite Hf, Hr. cbn [negb read_all]. rewrite process_nothing. discriminate. }
  exists (do (c, w') <- main k w [i; o]; Done (c, w', complaint arg0 c)). split.
  - now destruct (main k w [i; o]) as [(c, w')| |].
  - apply tool_gives_model; [apply two_arguments|exact Hw|exact E].
Qed.

Lemma tool_never_ends I v w arg0 i o es e : (forall n, holds (content w n)) -> i <> o -> found_by_stat w i = true -> readable w i = true ->
  content w i = file es ++ line e -> Forall entry_ok es -> Z.of_nat (List.length es) <= 0x7fffffff -> entry_ok e ->
  tool_returns_nothing I v w [arg0; i; o].
Proof.
  intros Hw Hio Hf Hr Hc He Hl Hok. destruct (tool_does I v w arg0 [i; o] (two_arguments _ _ _) Hw) as (n & Hn).
  exists n. intros rounds fuel depth Hfu Hd r. rewrite Hn by assumption. rewrite main_process by assumption. rewrite Hc.
  pose proof (process_stuck es e He Hl Hok rounds) as S.
  destruct (process rounds (file es ++ line e)) as [out| |]; [now elim (S out)|discriminate..].
Qed.

Lemma tool_undefined I v w arg0 i o es cs bad junk : (forall n, holds (content w n)) -> i <> o -> found_by_stat w i = true -> readable w i = true ->
  content w i = file es ++ bad ++ 10 :: junk -> Forall entry_ok es -> listing es cs -> Z.of_nat (List.length es) <= 0x7fffffff ->
  ~ In 10 bad -> ~ In 59 bad -> 10 < Z.of_nat (List.length bad) ->
  tool_gives I v w [arg0; i; o] Undefined.
Proof.
  intros Hw Hio Hf Hr Hc He Hli Hl H10 H59 Hb.
  assert (M : main (S (List.length es)) w [i; o] = Undefined).
  { rewrite main_process by assumption. rewrite Hc, (process_bad es cs bad junk) by (try assumption; lia). reflexivity. }
  pose proof (tool_gives_model I v w arg0 [i; o] (S (List.length es)) (two_arguments _ _ _) Hw) as H. rewrite M in H. apply H. discriminate.
Qed.

(* ---------------------------------------------------------------- cases *)

Lemma small_world w : w = free_world \/ w = read_only -> forall n, holds (content w n).
Proof. intros [-> | ->] n; cbn [content free_world read_only]; destruct (same_name n (chars "in")); reflexivity. Qed.

Lemma tool_silent_refuted : exists w i o, (forall n, holds (content w n)) /\ found_by_stat w i = true /\ readable w i = true /\ writable w o = false /\
  forall I v arg0, tool_gives I v w [arg0; i; o] (Done (0, w, [])).
Proof.
  exists read_only, (chars "in"), (chars "out"). split; [apply small_world; now right|]. do 3 (split; [reflexivity|]).
  intros I v arg0. apply (tool_gives_done I v read_only arg0 [chars "in"; chars "out"] 9 0); [reflexivity|apply small_world; now right|reflexivity].
Qed.

Lemma tool_refuses I v w arg0 : (forall n, holds (content w n)) ->
  (forall args, size (arg0 :: args) < 2 ^ 31 -> List.length args <> 2%nat ->
     tool_gives I v w (arg0 :: args) (Done (1, w, chars "Usage: " ++ arg0 ++ chars " <infile> <outfile>" ++ [10] ++
       chars "    to convert ;-delimited Unicode data into an array of test data." ++ [10]))) /\
  (forall i o, found_by_stat w i = false ->
     tool_gives I v w [arg0; i; o] (Done (2, w, chars "Usage: " ++ arg0 ++ chars " <infile> <outfile>" ++ [10] ++
       chars "    infile does not exist." ++ [10]))).
Proof. intros Hw. exact (conj (fun args Ha => tool_usage I v w arg0 args Ha Hw) (fun i o => tool_missing I v w arg0 i o Hw)). Qed.

Lemma tool_not_opened I v w arg0 : (forall n, holds (content w n)) ->
  (forall i o c w' err, found_by_stat w i = true -> writable w o = false ->
     tool_gives I v w [arg0; i; o] (Done (c, w', err)) -> c = 0 /\ w' = w /\ err = []) /\
  (forall i o, found_by_stat w i = true -> readable w i = false -> writable w o = true ->
     exists w', tool_gives I v w [arg0; i; o] (Done (0, w', [])) /\ content w' o = []) /\
  (forall f, found_by_stat w f = true -> writable w f = true ->
     exists w', tool_gives I v w [arg0; f; f] (Done (0, w', [])) /\ content w' f = []).
Proof.
  intros Hw. exact (conj (fun i o c w' err => tool_no_outfile I v w arg0 i o c w' err Hw)
    (conj (fun i o => tool_no_infile I v w arg0 i o Hw) (fun f => tool_same_file I v w arg0 f Hw))).
Qed.

Lemma tool_program c : exists process main, parse_tool c TextTool.mkUnicodeTestData_cxx = Some [process; main] /\
  t_name process = "process" /\ t_name main = "main".
Proof. exists process_fun, main_fun. split; [exact (tool_text c)|]. split; reflexivity. Qed.

Definition tiny : list string := ["int main(int argc, char* argv[])"; "{ int n = 0; while (argc > n) ++n; return 7; }"].

Lemma case_tool : parse_tool Wchar32 tiny = Some [{| t_name := "main"; t_params := [("argc", false); ("argv", false)];
    t_body := YSeq (YDecl "int" "n" (Some (XInt 0))) (YSeq (YWhile (XBin Gt (XName "argc") (XName "n")) (YExpr (XPreInc "n"))) (YReturn (XInt 7))) |}] /\
  (forall n, holds (content free_world n)) /\
  forall I v, exists w', tool_gives I v free_world [chars "tool"; chars "in"; chars "out"] (Done (0, w', [])) /\
    content w' (chars "out") = chars "char32_t validUnicodeCodePoints[] = {" ++ [10] ++ chars "     0x0041, 0xFFFFFFFF };" ++ [10] /\
    content w' (chars "in") = file [letter].
Proof.
  split; [reflexivity|]. split; [apply small_world; now left|]. intros I v. eexists. split; [|split].
  - refine (tool_gives_done I v free_world (chars "tool") [chars "in"; chars "out"] 9 0 _ _ _ eq_refl); [reflexivity|apply small_world; now left].
  - reflexivity.
  - reflexivity.
Qed.
