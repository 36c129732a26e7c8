(* The library as text.  The files of /repo are copied into Gen/Text*.v; Cxx/Lexer.v, Cxx/Parser.v and Cxx/Compile.v read
   them, Cxx/Semantics.v and Cxx/Linked.v run what is read.  No tool takes part. *)
From Coq Require Import ZArith List Bool String Permutation.
From Verif Require Import Machine.
From Verif.Model Require Import Tables.
From Verif.Cxx Require Import Syntax Semantics Configurations Linked Lexer Parser Compile FromText.
From Verif.Gen Require Import Source.
From Verif.Gen Require Text.
From Verif.Spec Require Import Utf Linked Safe.
From Verif.Proof Require Import CxxText CxxTextEnd.
Import ListNotations.
Local Open Scope string_scope.
Local Open Scope list_scope.
Local Open Scope Z_scope.

(* what the parser within Coq makes of the files is what the theorems C85-C104 are about *)
Theorem C105_files : forall c, exists P, compile c Text.files = Some P /\ Permutation (p_funs (d_program P)) (functions c) /\
  p_enums (d_program P) = p_enums source /\ p_arrays (d_program P) = p_arrays source /\ p_decls (d_program P) = p_decls source /\
  d_texts P = [].
Proof. exact text_files. Qed.
Print Assumptions C105_files.

Theorem C105_bits : forall c v, exists U, compile c (bits_files v) = Some U /\ p_funs (d_program U) = bits_of v /\ p_decls (d_program U) = [] /\
  d_texts U = [("supportedUnicodeVersion", version_of v)].
Proof. exact text_units. Qed.
Print Assumptions C105_bits.

(* so every call of a function of the text is a call of those theorems *)
Theorem C105_calls : forall I v fuel depth f args, text_call I v fuel depth f args = linked I v fuel depth f args.
Proof. exact text_linked. Qed.
Print Assumptions C105_calls.

Theorem C105_runs : forall I v f args r, text_runs_to I v f args r <-> linked_runs_to I v f args r.
Proof. exact text_runs. Qed.
Print Assumptions C105_runs.

Theorem C105_leaves : forall I v f args r, text_leaves I v f args r <-> linked_leaves I v f args r.
Proof. exact text_left. Qed.
Print Assumptions C105_leaves.

Theorem C105_once : forall I v f args r r', text_runs_to I v f args r -> text_runs_to I v f args r' -> r = r'.
Proof. exact text_once. Qed.
Print Assumptions C105_once.

(* for instance: the text returns from every call of Spec/Safe.v, and its conversions are inverse to each other *)
Theorem C105_returns : forall I v f args, call_of I f args -> exists r, text_runs_to I v f args (Done r).
Proof. exact text_safe. Qed.
Print Assumptions C105_returns.

Theorem C105_edits : forall I v f args, edit_of f args -> exists r, text_leaves I v f args (Done r).
Proof. exact text_safe_edits. Qed.
Print Assumptions C105_edits.

Theorem C105_round_trips : forall I v,
  (forall s, Forall encodable8 s ->
     exists bs, text_runs_to I v "toUtf8" [VS Char32 s] (Done (VS Char bs)) /\ text_runs_to I v "toUcs4" [VS Char bs] (Done (VS Char32 s))) /\
  (forall s, Forall scalar s ->
     exists us, text_runs_to I v "toUtf16" [VS Char32 s] (Done (VS Char16 us)) /\ text_runs_to I v "toUcs4" [VS Char16 us] (Done (VS Char32 s))) /\
  (forall cs, Forall scalar cs ->
     exists bs, text_runs_to I v "toUtf8" [VS Char16 (flat_map utf16_units cs)] (Done (VS Char bs)) /\
       text_runs_to I v "toUtf16" [VS Char bs] (Done (VS Char16 (flat_map utf16_units cs)))).
Proof. exact text_round_trips. Qed.
Print Assumptions C105_round_trips.

(* a small file (Proof/CxxText.v, [small]) read with and without WIN32, and a call of the text *)
Example C105_case : parse_file Win32 small = Some [IFunction small_f] /\ parse_file Wchar32 small = None /\
  text_call strict V16 20 10 "toUtf16" [VS Char [0xF0; 0x9F; 0x98; 0x80]] = Done (VS Char16 [0xD83D; 0xDE00], [None]).
Proof. exact case_text. Qed.
