(* The per-version functions of source/bits{7..16}/, collected so that the rest of the
   model takes the selected version as a parameter.  Which bits<N> directory is compiled
   in is chosen by CMakeLists.txt:134-160 (ANSAK_UNICODE_SUPPORT); the default is 16. *)
From Coq Require Import ZArith String.
From Verif.Gen Require Unicode7 Unicode8 Unicode9 Unicode10 Unicode11 Unicode12
  Unicode13 Unicode14 Unicode15 Unicode16.
Local Open Scope Z_scope.

(* The functions declared in source/string_internal.hxx:112-132 and :453-454 *)
Record UnicodeTables := {
  t_version : string;
  t_assigned8 : Z -> bool;  t_assigned16 : Z -> bool;  t_assigned32 : Z -> bool;
  t_private8 : Z -> bool;   t_private16 : Z -> bool;   t_private32 : Z -> bool;
  t_control8 : Z -> bool;   t_control16 : Z -> bool;   t_control32 : Z -> bool;
  t_space8 : Z -> bool;     t_space16 : Z -> bool;     t_space32 : Z -> bool;
  t_lower : Z -> Z;
  t_turkic : Z -> Z
}.

Inductive version := V7 | V8 | V9 | V10 | V11 | V12 | V13 | V14 | V15 | V16.

(* source/bits7/char_is_unicode.cxx, source/bits7/char_to_lower.cxx *)
Definition tables7 : UnicodeTables := {|
  t_version := Unicode7.supportedUnicodeVersion;
  t_assigned8 := Unicode7.isUnicodeAssigned_8; t_assigned16 := Unicode7.isUnicodeAssigned_16; t_assigned32 := Unicode7.isUnicodeAssigned_32;
  t_private8 := Unicode7.isUnicodePrivate_8; t_private16 := Unicode7.isUnicodePrivate_16; t_private32 := Unicode7.isUnicodePrivate_32;
  t_control8 := Unicode7.isControlChar_8; t_control16 := Unicode7.isControlChar_16; t_control32 := Unicode7.isControlChar_32;
  t_space8 := Unicode7.isWhitespaceChar_8; t_space16 := Unicode7.isWhitespaceChar_16; t_space32 := Unicode7.isWhitespaceChar_32;
  t_lower := Unicode7.toLower; t_turkic := Unicode7.turkicToLower |}.

(* source/bits8/char_is_unicode.cxx, source/bits8/char_to_lower.cxx *)
Definition tables8 : UnicodeTables := {|
  t_version := Unicode8.supportedUnicodeVersion;
  t_assigned8 := Unicode8.isUnicodeAssigned_8; t_assigned16 := Unicode8.isUnicodeAssigned_16; t_assigned32 := Unicode8.isUnicodeAssigned_32;
  t_private8 := Unicode8.isUnicodePrivate_8; t_private16 := Unicode8.isUnicodePrivate_16; t_private32 := Unicode8.isUnicodePrivate_32;
  t_control8 := Unicode8.isControlChar_8; t_control16 := Unicode8.isControlChar_16; t_control32 := Unicode8.isControlChar_32;
  t_space8 := Unicode8.isWhitespaceChar_8; t_space16 := Unicode8.isWhitespaceChar_16; t_space32 := Unicode8.isWhitespaceChar_32;
  t_lower := Unicode8.toLower; t_turkic := Unicode8.turkicToLower |}.

(* source/bits9/char_is_unicode.cxx, source/bits9/char_to_lower.cxx *)
Definition tables9 : UnicodeTables := {|
  t_version := Unicode9.supportedUnicodeVersion;
  t_assigned8 := Unicode9.isUnicodeAssigned_8; t_assigned16 := Unicode9.isUnicodeAssigned_16; t_assigned32 := Unicode9.isUnicodeAssigned_32;
  t_private8 := Unicode9.isUnicodePrivate_8; t_private16 := Unicode9.isUnicodePrivate_16; t_private32 := Unicode9.isUnicodePrivate_32;
  t_control8 := Unicode9.isControlChar_8; t_control16 := Unicode9.isControlChar_16; t_control32 := Unicode9.isControlChar_32;
  t_space8 := Unicode9.isWhitespaceChar_8; t_space16 := Unicode9.isWhitespaceChar_16; t_space32 := Unicode9.isWhitespaceChar_32;
  t_lower := Unicode9.toLower; t_turkic := Unicode9.turkicToLower |}.

(* source/bits10/char_is_unicode.cxx, source/bits10/char_to_lower.cxx *)
Definition tables10 : UnicodeTables := {|
  t_version := Unicode10.supportedUnicodeVersion;
  t_assigned8 := Unicode10.isUnicodeAssigned_8; t_assigned16 := Unicode10.isUnicodeAssigned_16; t_assigned32 := Unicode10.isUnicodeAssigned_32;
  t_private8 := Unicode10.isUnicodePrivate_8; t_private16 := Unicode10.isUnicodePrivate_16; t_private32 := Unicode10.isUnicodePrivate_32;
  t_control8 := Unicode10.isControlChar_8; t_control16 := Unicode10.isControlChar_16; t_control32 := Unicode10.isControlChar_32;
  t_space8 := Unicode10.isWhitespaceChar_8; t_space16 := Unicode10.isWhitespaceChar_16; t_space32 := Unicode10.isWhitespaceChar_32;
  t_lower := Unicode10.toLower; t_turkic := Unicode10.turkicToLower |}.

(* source/bits11/char_is_unicode.cxx, source/bits11/char_to_lower.cxx *)
Definition tables11 : UnicodeTables := {|
  t_version := Unicode11.supportedUnicodeVersion;
  t_assigned8 := Unicode11.isUnicodeAssigned_8; t_assigned16 := Unicode11.isUnicodeAssigned_16; t_assigned32 := Unicode11.isUnicodeAssigned_32;
  t_private8 := Unicode11.isUnicodePrivate_8; t_private16 := Unicode11.isUnicodePrivate_16; t_private32 := Unicode11.isUnicodePrivate_32;
  t_control8 := Unicode11.isControlChar_8; t_control16 := Unicode11.isControlChar_16; t_control32 := Unicode11.isControlChar_32;
  t_space8 := Unicode11.isWhitespaceChar_8; t_space16 := Unicode11.isWhitespaceChar_16; t_space32 := Unicode11.isWhitespaceChar_32;
  t_lower := Unicode11.toLower; t_turkic := Unicode11.turkicToLower |}.

(* source/bits12/char_is_unicode.cxx, source/bits12/char_to_lower.cxx *)
Definition tables12 : UnicodeTables := {|
  t_version := Unicode12.supportedUnicodeVersion;
  t_assigned8 := Unicode12.isUnicodeAssigned_8; t_assigned16 := Unicode12.isUnicodeAssigned_16; t_assigned32 := Unicode12.isUnicodeAssigned_32;
  t_private8 := Unicode12.isUnicodePrivate_8; t_private16 := Unicode12.isUnicodePrivate_16; t_private32 := Unicode12.isUnicodePrivate_32;
  t_control8 := Unicode12.isControlChar_8; t_control16 := Unicode12.isControlChar_16; t_control32 := Unicode12.isControlChar_32;
  t_space8 := Unicode12.isWhitespaceChar_8; t_space16 := Unicode12.isWhitespaceChar_16; t_space32 := Unicode12.isWhitespaceChar_32;
  t_lower := Unicode12.toLower; t_turkic := Unicode12.turkicToLower |}.

(* source/bits13/char_is_unicode.cxx, source/bits13/char_to_lower.cxx *)
Definition tables13 : UnicodeTables := {|
  t_version := Unicode13.supportedUnicodeVersion;
  t_assigned8 := Unicode13.isUnicodeAssigned_8; t_assigned16 := Unicode13.isUnicodeAssigned_16; t_assigned32 := Unicode13.isUnicodeAssigned_32;
  t_private8 := Unicode13.isUnicodePrivate_8; t_private16 := Unicode13.isUnicodePrivate_16; t_private32 := Unicode13.isUnicodePrivate_32;
  t_control8 := Unicode13.isControlChar_8; t_control16 := Unicode13.isControlChar_16; t_control32 := Unicode13.isControlChar_32;
  t_space8 := Unicode13.isWhitespaceChar_8; t_space16 := Unicode13.isWhitespaceChar_16; t_space32 := Unicode13.isWhitespaceChar_32;
  t_lower := Unicode13.toLower; t_turkic := Unicode13.turkicToLower |}.

(* source/bits14/char_is_unicode.cxx, source/bits14/char_to_lower.cxx *)
Definition tables14 : UnicodeTables := {|
  t_version := Unicode14.supportedUnicodeVersion;
  t_assigned8 := Unicode14.isUnicodeAssigned_8; t_assigned16 := Unicode14.isUnicodeAssigned_16; t_assigned32 := Unicode14.isUnicodeAssigned_32;
  t_private8 := Unicode14.isUnicodePrivate_8; t_private16 := Unicode14.isUnicodePrivate_16; t_private32 := Unicode14.isUnicodePrivate_32;
  t_control8 := Unicode14.isControlChar_8; t_control16 := Unicode14.isControlChar_16; t_control32 := Unicode14.isControlChar_32;
  t_space8 := Unicode14.isWhitespaceChar_8; t_space16 := Unicode14.isWhitespaceChar_16; t_space32 := Unicode14.isWhitespaceChar_32;
  t_lower := Unicode14.toLower; t_turkic := Unicode14.turkicToLower |}.

(* source/bits15/char_is_unicode.cxx, source/bits15/char_to_lower.cxx *)
Definition tables15 : UnicodeTables := {|
  t_version := Unicode15.supportedUnicodeVersion;
  t_assigned8 := Unicode15.isUnicodeAssigned_8; t_assigned16 := Unicode15.isUnicodeAssigned_16; t_assigned32 := Unicode15.isUnicodeAssigned_32;
  t_private8 := Unicode15.isUnicodePrivate_8; t_private16 := Unicode15.isUnicodePrivate_16; t_private32 := Unicode15.isUnicodePrivate_32;
  t_control8 := Unicode15.isControlChar_8; t_control16 := Unicode15.isControlChar_16; t_control32 := Unicode15.isControlChar_32;
  t_space8 := Unicode15.isWhitespaceChar_8; t_space16 := Unicode15.isWhitespaceChar_16; t_space32 := Unicode15.isWhitespaceChar_32;
  t_lower := Unicode15.toLower; t_turkic := Unicode15.turkicToLower |}.

(* source/bits16/char_is_unicode.cxx, source/bits16/char_to_lower.cxx *)
Definition tables16 : UnicodeTables := {|
  t_version := Unicode16.supportedUnicodeVersion;
  t_assigned8 := Unicode16.isUnicodeAssigned_8; t_assigned16 := Unicode16.isUnicodeAssigned_16; t_assigned32 := Unicode16.isUnicodeAssigned_32;
  t_private8 := Unicode16.isUnicodePrivate_8; t_private16 := Unicode16.isUnicodePrivate_16; t_private32 := Unicode16.isUnicodePrivate_32;
  t_control8 := Unicode16.isControlChar_8; t_control16 := Unicode16.isControlChar_16; t_control32 := Unicode16.isControlChar_32;
  t_space8 := Unicode16.isWhitespaceChar_8; t_space16 := Unicode16.isWhitespaceChar_16; t_space32 := Unicode16.isWhitespaceChar_32;
  t_lower := Unicode16.toLower; t_turkic := Unicode16.turkicToLower |}.

(* CMakeLists.txt:134-160 -- the version switch *)
Definition tables (v : version) : UnicodeTables :=
  match v with
  | V7 => tables7
  | V8 => tables8
  | V9 => tables9
  | V10 => tables10
  | V11 => tables11
  | V12 => tables12
  | V13 => tables13
  | V14 => tables14
  | V15 => tables15
  | V16 => tables16
  end.
