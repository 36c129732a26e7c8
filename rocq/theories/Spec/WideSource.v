(* wchar_t and its strings in each configuration: UTF-32 if it has 32 bits, UTF-16 if it has 16. *)
From Coq Require Import ZArith List.
From Verif.Cxx Require Import Syntax Semantics.
From Verif.Spec Require Import Utf.
Local Open Scope Z_scope.

Definition wchar (c : configuration) : ity := match c with Wchar32 => WChar32 | _ => WChar16 end.
Definition wide_text (c : configuration) (cs : list Z) : list Z :=
  match c with Wchar32 => cs | _ => flat_map utf16_units cs end.
