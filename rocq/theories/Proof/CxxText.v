(* What the text of the files says is what Gen/Source.v and Gen/Bits<N>.v have. *)
From Coq Require Import ZArith List Bool String Ascii Permutation Lia.
From Verif Require Import Machine.
From Verif.Model Require Import Tables.
From Verif.Cxx Require Import Syntax Semantics Configurations Linked Lexer Parser Compile FromText.
From Verif.Gen Require Import Source.
From Verif.Gen Require Text Text7 Text8 Text9 Text10 Text11 Text12 Text13 Text14 Text15 Text16.
From Verif.Gen Require Bits7 Bits8 Bits9 Bits10 Bits11 Bits12 Bits13 Bits14 Bits15 Bits16.
From Verif.Proof Require Import CxxMono.
Import ListNotations.
Local Open Scope string_scope.
Local Open Scope list_scope.

(* ---------------------------------------------------------------- the order of the functions does not matter *)

Lemma filter_perm {A} (p : A -> bool) l l' : Permutation l l' -> Permutation (filter p l) (filter p l').
Proof.
  induction 1; cbn; try reflexivity.
  - destruct (p x); auto.
  - destruct (p x), (p y); try reflexivity. apply perm_swap.
  - etransitivity; eassumption.
Qed.

Lemma only_perm {A B} (l l' : list A) (none : B) (one : A -> B) (more : B) : Permutation l l' ->
  match l with [] => none | [d] => one d | _ => more end = match l' with [] => none | [d] => one d | _ => more end.
Proof.
  intros H. destruct l as [|x [|y l]].
  - now apply Permutation_nil in H; subst.
  - now apply Permutation_length_1_inv in H; subst.
  - apply Permutation_length in H. destruct l' as [|x' [|y' l']]; cbn in H; try discriminate. reflexivity.
Qed.

Lemma select_perm fs fs' f vs : Permutation fs fs' -> select fs f vs = select fs' f vs.
Proof.
  intros H. unfold select.
  set (named := filter _ fs). set (named' := filter _ fs').
  assert (Hn : Permutation named named') by now apply filter_perm.
  clearbody named named'.
  pose proof (filter_perm (fun d => all_exact (f_params d) vs && negb (is_template d)) _ _ Hn) as H1.
  pose proof (filter_perm (fun d => all_exact (f_params d) vs) _ _ Hn) as H2.
  pose proof (filter_perm (fun d => all_viable (f_params d) vs) _ _ Hn) as H3.
  assert (E3 : match filter (fun d => all_viable (f_params d) vs) named with [d] => Some d | _ => None end =
               match filter (fun d => all_viable (f_params d) vs) named' with [d] => Some d | _ => None end).
  { pose proof (only_perm _ _ None Some None H3) as E.
    destruct (filter _ named) as [|? [|? ?]], (filter _ named') as [|? [|? ?]]; exact E. }
  assert (E4 : match named with [d] => Some d | _ => match filter (fun d => all_viable (f_params d) vs) named with [d] => Some d | _ => None end end =
               match named' with [d] => Some d | _ => match filter (fun d => all_viable (f_params d) vs) named' with [d] => Some d | _ => None end end).
  { rewrite E3. pose proof (Permutation_length Hn) as L. destruct named as [|x [|y l]].
    - now apply Permutation_nil in Hn; subst.
    - now apply Permutation_length_1_inv in Hn; subst.
    - destruct named' as [|x' [|y' l']]; cbn in L; try discriminate. reflexivity. }
  rewrite E4.
  rewrite (only_perm _ _ _ Some None H2). apply only_perm, H1.
Qed.

Lemma both_less {A} (a b : outcome A) : less a b -> less b a -> a = b.
Proof. now intros [->| ->] [->|E]. Qed.

Lemma linked_perm I G fs fs' ds unit fuel : Permutation fs fs' -> forall depth f vs,
  run_linked I G fs ds unit fuel depth f vs = run_linked I G fs' ds unit fuel depth f vs.
Proof.
  intros H. induction depth as [|depth IH]; intros f vs; [reflexivity|].
  cbn [run_linked].
  rewrite (select_perm (fs ++ ds) (fs' ++ ds)) by now apply Permutation_app_tail.
  destruct (select (fs' ++ ds) f vs) as [d|]; [|reflexivity].
  destruct (definition_of unit d) as [d'|]; [reflexivity|].
  apply both_less; apply less_invoke; try lia; intros g ws; right; [|symmetry]; apply IH.
Qed.

(* ---------------------------------------------------------------- the files every build uses *)

(* in the order of the text: the functions of string.hxx that depend on the configuration come after its first
   thirteen, the names given to calls come last *)
Definition in_order (c : configuration) : list fundef :=
  let n := match c with Win32_mbcs => 48%nat | _ => List.length (own c) end in
  firstn 13 (p_funs source) ++ firstn n (own c) ++ skipn 13 (p_funs source) ++ skipn n (own c).

Lemma in_order_perm c : Permutation (in_order c) (functions c).
Proof.
  unfold in_order, functions. set (n := match c with Win32_mbcs => _ | _ => _ end). clearbody n.
  rewrite <- (firstn_skipn n (own c)) at 3. rewrite <- (firstn_skipn 13 (p_funs source)) at 3.
  rewrite <- app_assoc. apply Permutation_app_head. rewrite !app_assoc. apply Permutation_app_tail, Permutation_app_comm.
Qed.

Definition whole (c : configuration) : parsed :=
  {| d_program := {| p_enums := p_enums source; p_arrays := p_arrays source; p_funs := in_order c; p_decls := p_decls source |};
     d_texts := [] |}.

Lemma text_wchar32 : compile Wchar32 Text.files = Some (whole Wchar32).
Proof. vm_cast_no_check (eq_refl (Some (whole Wchar32))). Qed.
Lemma text_wchar16 : compile Wchar16 Text.files = Some (whole Wchar16).
Proof. vm_cast_no_check (eq_refl (Some (whole Wchar16))). Qed.
Lemma text_win32 : compile Win32 Text.files = Some (whole Win32).
Proof. vm_cast_no_check (eq_refl (Some (whole Win32))). Qed.
Lemma text_win32_mbcs : compile Win32_mbcs Text.files = Some (whole Win32_mbcs).
Proof. vm_cast_no_check (eq_refl (Some (whole Win32_mbcs))). Qed.
Lemma text_win32_unicode : compile Win32_unicode Text.files = Some (whole Win32_unicode).
Proof. vm_cast_no_check (eq_refl (Some (whole Win32_unicode))). Qed.

Lemma text_whole c : compile c Text.files = Some (whole c).
Proof.
  destruct c; [exact text_wchar32 | exact text_wchar16 | exact text_win32 | exact text_win32_mbcs | exact text_win32_unicode].
Qed.

(* ---------------------------------------------------------------- the files of the bits<N> directories *)

Definition unit (fs : list fundef) (version : expr) : parsed :=
  {| d_program := {| p_enums := []; p_arrays := []; p_funs := fs; p_decls := [] |}; d_texts := [("supportedUnicodeVersion", version)] |}.

Lemma text_bits7 c : compile c Text7.files = Some (unit Bits7.functions Bits7.version).
Proof. vm_cast_no_check (eq_refl (Some (unit Bits7.functions Bits7.version))). Qed.
Lemma text_bits8 c : compile c Text8.files = Some (unit Bits8.functions Bits8.version).
Proof. vm_cast_no_check (eq_refl (Some (unit Bits8.functions Bits8.version))). Qed.
Lemma text_bits9 c : compile c Text9.files = Some (unit Bits9.functions Bits9.version).
Proof. vm_cast_no_check (eq_refl (Some (unit Bits9.functions Bits9.version))). Qed.
Lemma text_bits10 c : compile c Text10.files = Some (unit Bits10.functions Bits10.version).
Proof. vm_cast_no_check (eq_refl (Some (unit Bits10.functions Bits10.version))). Qed.
Lemma text_bits11 c : compile c Text11.files = Some (unit Bits11.functions Bits11.version).
Proof. vm_cast_no_check (eq_refl (Some (unit Bits11.functions Bits11.version))). Qed.
Lemma text_bits12 c : compile c Text12.files = Some (unit Bits12.functions Bits12.version).
Proof. vm_cast_no_check (eq_refl (Some (unit Bits12.functions Bits12.version))). Qed.
Lemma text_bits13 c : compile c Text13.files = Some (unit Bits13.functions Bits13.version).
Proof. vm_cast_no_check (eq_refl (Some (unit Bits13.functions Bits13.version))). Qed.
Lemma text_bits14 c : compile c Text14.files = Some (unit Bits14.functions Bits14.version).
Proof. vm_cast_no_check (eq_refl (Some (unit Bits14.functions Bits14.version))). Qed.
Lemma text_bits15 c : compile c Text15.files = Some (unit Bits15.functions Bits15.version).
Proof. vm_cast_no_check (eq_refl (Some (unit Bits15.functions Bits15.version))). Qed.
Lemma text_bits16 c : compile c Text16.files = Some (unit Bits16.functions Bits16.version).
Proof. vm_cast_no_check (eq_refl (Some (unit Bits16.functions Bits16.version))). Qed.

Lemma text_bits c v : compile c (bits_files v) = Some (unit (bits_of v) (version_of v)).
Proof.
  destruct v; [exact (text_bits7 c) | exact (text_bits8 c) | exact (text_bits9 c) | exact (text_bits10 c) | exact (text_bits11 c) |
               exact (text_bits12 c) | exact (text_bits13 c) | exact (text_bits14 c) | exact (text_bits15 c) | exact (text_bits16 c)].
Qed.

(* ---------------------------------------------------------------- calls *)

Theorem text_linked I v fuel depth f vs : text_call I v fuel depth f vs = linked I v fuel depth f vs.
Proof.
  unfold text_call. rewrite text_whole, text_bits. unfold linked_program, linked, linked_globals. cbn [whole unit d_program d_texts p_funs p_decls p_enums p_arrays app map fst snd].
  apply linked_perm, in_order_perm.
Qed.

Lemma text_runs I v f args r : text_runs_to I v f args r <-> linked_runs_to I v f args r.
Proof. split; intros [n H]; exists n; intros fuel depth H1 H2; rewrite <- (H fuel depth H1 H2); now rewrite text_linked. Qed.
Lemma text_left I v f args r : text_leaves I v f args r <-> linked_leaves I v f args r.
Proof. split; intros [n H]; exists n; intros fuel depth H1 H2; rewrite <- (H fuel depth H1 H2); now rewrite text_linked. Qed.

Lemma text_files c : exists P, compile c Text.files = Some P /\ Permutation (p_funs (d_program P)) (functions c) /\
  p_enums (d_program P) = p_enums source /\ p_arrays (d_program P) = p_arrays source /\ p_decls (d_program P) = p_decls source /\
  d_texts P = [].
Proof. exists (whole c). split; [apply text_whole|]. split; [apply in_order_perm|]. now repeat split. Qed.

Lemma text_units c v : exists U, compile c (bits_files v) = Some U /\ p_funs (d_program U) = bits_of v /\ p_decls (d_program U) = [] /\
  d_texts U = [("supportedUnicodeVersion", version_of v)].
Proof. exists (unit (bits_of v) (version_of v)). split; [apply text_bits|]. now repeat split. Qed.

(* ---------------------------------------------------------------- examples *)

Local Open Scope Z_scope.

Definition small : list string :=
  ["#if defined(WIN32) // Windows";
   "/* two";
   "lines */ int f(int x, unsigned y = 0x10)";
   "{";
   "    if (!x || y > 2) return 1 + 2 * x & y;";
   "    else { ++x; }";
   "    return x - 1 - y;   // (x - 1) - y";
   "}";
   "#else";
   "this is not C++ (";
   "#endif"].

Definition small_f : fundef := {|
  f_name := "f";
  f_params := [{| p_ty := TI Int; p_ref := false; p_name := "x"; p_default := None |};
               {| p_ty := TI UInt; p_ref := false; p_name := "y"; p_default := Some (ELit true 16) |}];
  f_ret := TI Int;
  f_body := SSeq (SIf (EOr (ENot (EVar "x")) (EBin Gt (EVar "y") (ELit false 2)))
                      (SReturn (Some (EBin BAnd (EBin Add (ELit false 1) (EBin Mul (ELit false 2) (EVar "x"))) (EVar "y"))))
                      (SExpr (EPreInc "x")))
                 (SReturn (Some (EBin Sub (EBin Sub (EVar "x") (ELit false 1)) (EVar "y")))) |}.

Lemma case_text : parse_file Win32 small = Some [IFunction small_f] /\ parse_file Wchar32 small = None /\
  text_call {| char_signed := true; pointer_checks := true; configured := Wchar32 |} V16 20 10 "toUtf16" [VS Char [0xF0; 0x9F; 0x98; 0x80]] =
    Done (VS Char16 [0xD83D; 0xDE00], [None]).
Proof. split; [reflexivity|]. split; [reflexivity|]. rewrite text_linked. reflexivity. Qed.
