(* The program of Gen/Source.v, with the functions it takes from the selected source/bits<N> directory
   (translated separately, Gen/Unicode<N>.v). *)
From Coq Require Import ZArith List Bool String Ascii.
From Verif Require Import Machine.
From Verif.Model Require Import Tables.
From Verif.Cxx Require Import Syntax Semantics Configurations.
From Verif.Gen Require Import Source.
Import ListNotations.
Local Open Scope string_scope.
Local Open Scope list_scope.
Local Open Scope Z_scope.

(* source/string_internal.hxx:111-132, :453-454: what is only declared there.
   The functions taking char are called with its bit pattern. *)
Definition external (T : UnicodeTables) (f : string) (vs : list value) : option value :=
  match f, vs with
  | "isUnicodeAssigned", [VI Char16 c] => Some (VB (t_assigned16 T c))
  | "isUnicodeAssigned", [VI Char32 c] => Some (VB (t_assigned32 T c))
  | "isUnicodePrivate", [VI Char16 c] => Some (VB (t_private16 T c))
  | "isUnicodePrivate", [VI Char32 c] => Some (VB (t_private32 T c))
  | "isControlChar", [VI Char c] => Some (VB (t_control8 T (bits Char c)))
  | "isControlChar", [VI Char16 c] => Some (VB (t_control16 T c))
  | "isControlChar", [VI Char32 c] => Some (VB (t_control32 T c))
  | "isWhitespaceChar", [VI Char c] => Some (VB (t_space8 T (bits Char c)))
  | "isWhitespaceChar", [VI Char16 c] => Some (VB (t_space16 T c))
  | "isWhitespaceChar", [VI Char32 c] => Some (VB (t_space32 T c))
  | "internal::turkicToLower", [VI Char32 c] => Some (VI Char32 (t_turkic T c))
  | "internal::turkicToLower", [VI _ c] => Some (VI Char32 (t_turkic T (bits Char32 c)))
  | "internal::turkicToLower", [VB b] => Some (VI Char32 (t_turkic T (if b then 1 else 0)))
  | "internal::toLower", [VI Char32 c] => Some (VI Char32 (t_lower T c))
  | "internal::toLower", [VI _ c] => Some (VI Char32 (t_lower T (bits Char32 c)))
  | "internal::toLower", [VB b] => Some (VI Char32 (t_lower T (if b then 1 else 0)))
  | _, _ => None
  end.

Definition text (s : string) : list Z := map (fun c => Z.of_nat (nat_of_ascii c)) (list_ascii_of_string s).

Definition G (I : implementation) (T : UnicodeTables) : list (string * value) :=
  ("supportedUnicodeVersion", VS Char (text (t_version T))) :: globals I source.

(* the call f(vs): loops run at most [fuel] rounds, calls are nested at most [depth] deep *)
Definition call (I : implementation) (T : UnicodeTables) (fuel depth : nat) : calls :=
  run I (G I T) (external T) (functions (configured I) ++ p_decls source) fuel depth.
