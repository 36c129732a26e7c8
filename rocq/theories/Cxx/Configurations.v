(* The functions of the library in each configuration (interface/string.hxx:476, :545, :574, :613, :866). *)
From Coq Require Import List.
From Verif.Cxx Require Import Syntax Semantics.
From Verif.Gen Require Import Source.

Definition own (c : configuration) : list fundef :=
  match c with
  | Wchar32 => wchar32_functions
  | Wchar16 => wchar16_functions
  | Win32 => win32_functions
  | Win32_mbcs => win32_mbcs_functions
  | Win32_unicode => win32_unicode_functions
  end.
(* wchar_t has 16 bits; WIN32 is defined *)
Definition wide16 (c : configuration) : bool := match c with Wchar32 => false | _ => true end.
Definition windows (c : configuration) : bool := match c with Wchar32 | Wchar16 => false | _ => true end.

Definition functions (c : configuration) : list fundef := p_funs source ++ own c.
