(* Written by tools/bitsproof.py: the parsed functions of source/bits10 do what Gen/Unicode10.v says. *)
From Coq Require Import ZArith List String.
From Verif.Model Require Import Tables.
From Verif.Cxx Require Import Syntax Semantics Linked.
From Verif.Gen Require Bits10 Unicode10.
From Verif.Proof Require Import CxxPure CxxLinked.
Import ListNotations.

Definition translations : list fn :=
  [FB Unicode10.isInTheGap0003;
   FB Unicode10.isInTheGap0005;
   FB Unicode10.isInTheGap0006;
   FB Unicode10.isInTheGap0007;
   FB Unicode10.isInTheGap0008;
   FB Unicode10.isInTheGap0009;
   FB Unicode10.isInTheGap000A;
   FB Unicode10.isInTheGap000B;
   FB Unicode10.isInTheGap000C;
   FB Unicode10.isInTheGap000D;
   FB Unicode10.isInTheGap000E;
   FB Unicode10.isInTheGap000F;
   FB Unicode10.isInTheGap0010;
   FB Unicode10.isInTheGap0012;
   FB Unicode10.isInTheGap0013;
   FB Unicode10.isInTheGap0016;
   FB Unicode10.isInTheGap0017;
   FB Unicode10.isInTheGap0018;
   FB Unicode10.isInTheGap0019;
   FB Unicode10.isInTheGap001A;
   FB Unicode10.isInTheGap001B;
   FB Unicode10.isInTheGap001C;
   FB Unicode10.isInTheGap001F;
   FB Unicode10.isInTheGap0020;
   FB Unicode10.isInTheGap0021;
   FB Unicode10.isInTheGap0024;
   FB Unicode10.isInTheGap002B;
   FB Unicode10.isInTheGap002C;
   FB Unicode10.isInTheGap002D;
   FB Unicode10.isInTheGap002E;
   FB Unicode10.isInTheGap002F;
   FB Unicode10.isInTheGap0030;
   FB Unicode10.isInTheGap0031;
   FB Unicode10.isInTheGap0032;
   FB Unicode10.isInTheGap004D;
   FB Unicode10.isInTheGap009F;
   FB Unicode10.isInTheGap00A4;
   FB Unicode10.isInTheGap00A6;
   FB Unicode10.isInTheGap00A7;
   FB Unicode10.isInTheGap00A8;
   FB Unicode10.isInTheGap00A9;
   FB Unicode10.isInTheGap00AA;
   FB Unicode10.isInTheGap00AB;
   FB Unicode10.isInTheGap00D7_DF;
   FB Unicode10.isInTheGap00FA;
   FB Unicode10.isInTheGap00FB;
   FB Unicode10.isInTheGap00FD;
   FB Unicode10.isInTheGap00FE;
   FB Unicode10.isInTheGap00FF;
   FB Unicode10.isInTheGap0100;
   FB Unicode10.isInTheGap0101;
   FB Unicode10.isInTheGap0102;
   FB Unicode10.isInTheGap0103;
   FB Unicode10.isInTheGap0104;
   FB Unicode10.isInTheGap0105;
   FB Unicode10.isInTheGap0107;
   FB Unicode10.isInTheGap0108;
   FB Unicode10.isInTheGap0109;
   FB Unicode10.isInTheGap010A;
   FB Unicode10.isInTheGap010B;
   FB Unicode10.isInTheGap010C;
   FB Unicode10.isInTheGap010E;
   FB Unicode10.isInTheGap0110;
   FB Unicode10.isInTheGap0111;
   FB Unicode10.isInTheGap0112;
   FB Unicode10.isInTheGap0113;
   FB Unicode10.isInTheGap0114;
   FB Unicode10.isInTheGap0115;
   FB Unicode10.isInTheGap0116;
   FB Unicode10.isInTheGap0117;
   FB Unicode10.isInTheGap0118;
   FB Unicode10.isInTheGap011A;
   FB Unicode10.isInTheGap011C;
   FB Unicode10.isInTheGap011D;
   FB Unicode10.isInTheGap0123;
   FB Unicode10.isInTheGap0124;
   FB Unicode10.isInTheGap0125;
   FB Unicode10.isInTheGap0134;
   FB Unicode10.isInTheGap0146;
   FB Unicode10.isInTheGap016A;
   FB Unicode10.isInTheGap016B;
   FB Unicode10.isInTheGap016F;
   FB Unicode10.isInTheGap0187;
   FB Unicode10.isInTheGap018A;
   FB Unicode10.isInTheGap01B1;
   FB Unicode10.isInTheGap01B2;
   FB Unicode10.isInTheGap01BC;
   FB Unicode10.isInTheGap01D0;
   FB Unicode10.isInTheGap01D1;
   FB Unicode10.isInTheGap01D2;
   FB Unicode10.isInTheGap01D3;
   FB Unicode10.isInTheGap01D4;
   FB Unicode10.isInTheGap01D5;
   FB Unicode10.isInTheGap01D6;
   FB Unicode10.isInTheGap01D7;
   FB Unicode10.isInTheGap01DA;
   FB Unicode10.isInTheGap01E0;
   FB Unicode10.isInTheGap01E8;
   FB Unicode10.isInTheGap01E9;
   FB Unicode10.isInTheGap01EE;
   FB Unicode10.isInTheGap01F0;
   FB Unicode10.isInTheGap01F1;
   FB Unicode10.isInTheGap01F2;
   FB Unicode10.isInTheGap01F6;
   FB Unicode10.isInTheGap01F7;
   FB Unicode10.isInTheGap01F8;
   FB Unicode10.isInTheGap01F9;
   FB Unicode10.isInTheGap01;
   FB Unicode10.isInTheGap02A6;
   FB Unicode10.isInTheGap02B7;
   FB Unicode10.isInTheGap02B8;
   FB Unicode10.isInTheGap02CE;
   FB Unicode10.isInTheGap02EB;
   FB Unicode10.isInTheGap02FA;
   FB Unicode10.isInTheGap02;
   FB Unicode10.isInTheGap0E;
   FB Unicode10.isUnicodeAssigned_16;
   FB Unicode10.isUnicodeAssigned_32;
   FB Unicode10.isUnicodePrivate_16;
   FB Unicode10.isUnicodePrivate_32;
   FB Unicode10.isControlChar_8;
   FB Unicode10.isControlChar_16;
   FB Unicode10.isControlChar_32;
   FB Unicode10.isWhitespaceChar_8;
   FB Unicode10.isWhitespaceChar_16;
   FB Unicode10.isWhitespaceChar_32;
   FZ Char Unicode10.toLowerC;
   FZ Char16 Unicode10.toLower0100;
   FZ Char16 Unicode10.toLower0200;
   FZ Char16 Unicode10.toLower0300;
   FZ Char16 Unicode10.toLower0400;
   FZ Char16 Unicode10.toLower0500;
   FZ Char16 Unicode10.toLower1000;
   FZ Char16 Unicode10.toLower2000;
   FZ Char16 Unicode10.toLowerA000;
   FZ Char16 Unicode10.toLowerF000;
   FZ Char16 Unicode10.toLower2;
   FZ Char32 Unicode10.toLower;
   FZ Char32 Unicode10.turkicToLower].

Ltac by_kernel := match goal with |- _ = ?y => exact_no_check (@eq_refl _ y) end.

Lemma translated : compiles [] Bits10.functions translations.
Proof. repeat (split; [by_kernel|]). exact I. Qed.

Lemma all_found : Forall (found nothing Bits10.functions) Bits10.functions.
Proof. repeat (constructor; [intros z; split; [reflexivity | by_kernel]|]). constructor. Qed.

Lemma provided : provides Bits10.functions tables10.
Proof.
  apply (provides_from _ translations _ [116; 117; 118; 119; 120; 121; 122; 123; 124; 125; 138; 137]%nat all_found translated).
  - repeat (constructor; [eexists; split; [reflexivity | split; [eexists; reflexivity | split; reflexivity]]|]). constructor.
  - repeat (constructor; [reflexivity|]). constructor.
  - intros []; repeat (constructor; [reflexivity|]); constructor.
Qed.
