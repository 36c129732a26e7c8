(* C104: every call of the library on texts that end in a zero returns. *)
From Coq Require Import ZArith List Bool String Lia.
From Verif Require Import Machine.
From Verif.Model Require Import Tables.
From Verif.Cxx Require Import Syntax Semantics Configurations Program Values Linked.
From Verif.Spec Require Import Utf Text Version Source Linked WideSource Safe.
From Verif.Proof Require Import CxxMono CxxWhole CxxSafe.
Import ListNotations.
Local Open Scope string_scope.
Local Open Scope list_scope.
Local Open Scope Z_scope.

(* whatever the version of the characters, the configuration, whether char is signed, the contents of the arguments *)
Theorem C104_returns : forall I v f args, call_of I f args -> exists r, linked_runs_to I v f args (Done r).
Proof. exact safe. Qed.
Print Assumptions C104_returns.

Theorem C104_edits : forall I v f args, edit_of f args -> exists r, linked_leaves I v f args (Done r).
Proof. exact safe_edits. Qed.
Print Assumptions C104_edits.

(* and to nothing else *)
Theorem C104_once : forall I v f args r r', linked_runs_to I v f args r -> linked_runs_to I v f args r' -> r = r'.
Proof. exact l_once. Qed.
Print Assumptions C104_once.

(* no function of the library is left out *)
Theorem C104_every_function : forall I f, In f (functions (configured I)) ->
  In (f_name f) helpers \/ exists args, call_of I (f_name f) args \/ edit_of (f_name f) args.
Proof. exact every_function. Qed.
Print Assumptions C104_every_function.

(* what is left out of [call_of] is left out with reason: the null pointers not in it, and a split into too many parts *)
Theorem C104_left_out : forall I v,
  linked_runs_to I v "unicodeLength" [VP Char16 PNull] Undefined /\ linked_runs_to I v "unicodeLength" [VP Char32 PNull] Undefined /\
  (configured I = Wchar32 -> linked_runs_to I v "toUcs4" [VP WChar32 PNull] Undefined /\ linked_runs_to I v "toWstring" [VP Char32 PNull] Undefined) /\
  (wide16 (configured I) = true -> linked_runs_to I v "toUtf16" [VP WChar16 PNull] Undefined /\ linked_runs_to I v "toUcs2" [VP WChar16 PNull] Undefined /\
     linked_runs_to I v "toWstring" [VP Char16 PNull] Undefined) /\
  (windows (configured I) = true -> linked_runs_to I v "toUtf8" [VP Char PNull] Undefined) /\
  (configured I = Win32_mbcs -> linked_runs_to I v "toTstring" [VP Char PNull] Undefined) /\
  (configured I = Win32_unicode -> linked_runs_to I v "toTstring" [VP Char16 PNull] Undefined) /\
  (forall t P s d, string_type t P -> P d -> holds s -> 0x80000000 <= occurrences d s ->
     linked_runs_to I v "split" [VS t s; VI t (norm I t d)] Undefined).
Proof. exact left_out. Qed.
Print Assumptions C104_left_out.

(* nonsense in an array with a zero in it, from the second byte on *)
Example C104_case : call_of strict "isUtf8" [VP Char (PAt [0x41; 0xC3; 0; 0xFF] 1); VI Enum 7] /\
  call_of strict "toUcs4" [VP Char16 (PAt [0xDC00; 0; 0xD800] 0)] /\ edit_of "trim" [VS Char32 [0x20; 0; 0x20]] /\
  call_of (machine false Win32_unicode) "toTstring" [VS Char [0xFF; 0; 0x41]] /\
  ~ call_of strict "unicodeLength" [VP Char16 PNull].
Proof. exact case_safe. Qed.
