(* Written by tools/bitsproof.py: the parsed functions of source/bits8 do what Gen/Unicode8.v says. *)
From Coq Require Import ZArith List String.
From Verif.Model Require Import Tables.
From Verif.Cxx Require Import Syntax Semantics Linked.
From Verif.Gen Require Bits8 Unicode8.
From Verif.Proof Require Import CxxPure CxxLinked.
Import ListNotations.

Definition translations : list fn :=
  [FB Unicode8.isInTheGap0003;
   FB Unicode8.isInTheGap0005;
   FB Unicode8.isInTheGap0006;
   FB Unicode8.isInTheGap0007;
   FB Unicode8.isInTheGap0008;
   FB Unicode8.isInTheGap0009;
   FB Unicode8.isInTheGap000A;
   FB Unicode8.isInTheGap000B;
   FB Unicode8.isInTheGap000C;
   FB Unicode8.isInTheGap000D;
   FB Unicode8.isInTheGap000E;
   FB Unicode8.isInTheGap000F;
   FB Unicode8.isInTheGap0010;
   FB Unicode8.isInTheGap0012;
   FB Unicode8.isInTheGap0013;
   FB Unicode8.isInTheGap0016;
   FB Unicode8.isInTheGap0017;
   FB Unicode8.isInTheGap0018;
   FB Unicode8.isInTheGap0019;
   FB Unicode8.isInTheGap001A;
   FB Unicode8.isInTheGap001B;
   FB Unicode8.isInTheGap001C;
   FB Unicode8.isInTheGap001D;
   FB Unicode8.isInTheGap001F;
   FB Unicode8.isInTheGap0020;
   FB Unicode8.isInTheGap0021;
   FB Unicode8.isInTheGap0023;
   FB Unicode8.isInTheGap0024;
   FB Unicode8.isInTheGap002B;
   FB Unicode8.isInTheGap002C;
   FB Unicode8.isInTheGap002D;
   FB Unicode8.isInTheGap002E;
   FB Unicode8.isInTheGap002F;
   FB Unicode8.isInTheGap0030;
   FB Unicode8.isInTheGap0031;
   FB Unicode8.isInTheGap0032;
   FB Unicode8.isInTheGap004D;
   FB Unicode8.isInTheGap009F;
   FB Unicode8.isInTheGap00A4;
   FB Unicode8.isInTheGap00A6;
   FB Unicode8.isInTheGap00A7;
   FB Unicode8.isInTheGap00A8;
   FB Unicode8.isInTheGap00A9;
   FB Unicode8.isInTheGap00AA;
   FB Unicode8.isInTheGap00AB;
   FB Unicode8.isInTheGap00D7_DF;
   FB Unicode8.isInTheGap00FA;
   FB Unicode8.isInTheGap00FB;
   FB Unicode8.isInTheGap00FD;
   FB Unicode8.isInTheGap00FE;
   FB Unicode8.isInTheGap00FF;
   FB Unicode8.isInTheGap0100;
   FB Unicode8.isInTheGap0101;
   FB Unicode8.isInTheGap0102;
   FB Unicode8.isInTheGap0103;
   FB Unicode8.isInTheGap0104;
   FB Unicode8.isInTheGap0105;
   FB Unicode8.isInTheGap0107;
   FB Unicode8.isInTheGap0108;
   FB Unicode8.isInTheGap0109;
   FB Unicode8.isInTheGap010A;
   FB Unicode8.isInTheGap010B;
   FB Unicode8.isInTheGap010C;
   FB Unicode8.isInTheGap010E;
   FB Unicode8.isInTheGap0110;
   FB Unicode8.isInTheGap0111;
   FB Unicode8.isInTheGap0112;
   FB Unicode8.isInTheGap0113;
   FB Unicode8.isInTheGap0114;
   FB Unicode8.isInTheGap0115;
   FB Unicode8.isInTheGap0116;
   FB Unicode8.isInTheGap0117;
   FB Unicode8.isInTheGap0118;
   FB Unicode8.isInTheGap011A;
   FB Unicode8.isInTheGap0123;
   FB Unicode8.isInTheGap0124;
   FB Unicode8.isInTheGap0125;
   FB Unicode8.isInTheGap0134;
   FB Unicode8.isInTheGap0146;
   FB Unicode8.isInTheGap016A;
   FB Unicode8.isInTheGap016B;
   FB Unicode8.isInTheGap016F;
   FB Unicode8.isInTheGap01B0;
   FB Unicode8.isInTheGap01BC;
   FB Unicode8.isInTheGap01D0;
   FB Unicode8.isInTheGap01D1;
   FB Unicode8.isInTheGap01D2;
   FB Unicode8.isInTheGap01D3;
   FB Unicode8.isInTheGap01D4;
   FB Unicode8.isInTheGap01D5;
   FB Unicode8.isInTheGap01D6;
   FB Unicode8.isInTheGap01D7;
   FB Unicode8.isInTheGap01DA;
   FB Unicode8.isInTheGap01E8;
   FB Unicode8.isInTheGap01EE;
   FB Unicode8.isInTheGap01F0;
   FB Unicode8.isInTheGap01F1;
   FB Unicode8.isInTheGap01F2;
   FB Unicode8.isInTheGap01F5;
   FB Unicode8.isInTheGap01F6;
   FB Unicode8.isInTheGap01F7;
   FB Unicode8.isInTheGap01F8;
   FB Unicode8.isInTheGap01F9;
   FB Unicode8.isInTheGap01;
   FB Unicode8.isInTheGap02A6;
   FB Unicode8.isInTheGap02B7;
   FB Unicode8.isInTheGap02B8;
   FB Unicode8.isInTheGap02CE;
   FB Unicode8.isInTheGap02FA;
   FB Unicode8.isInTheGap02;
   FB Unicode8.isInTheGap0E;
   FB Unicode8.isUnicodeAssigned_16;
   FB Unicode8.isUnicodeAssigned_32;
   FB Unicode8.isUnicodePrivate_16;
   FB Unicode8.isUnicodePrivate_32;
   FB Unicode8.isControlChar_8;
   FB Unicode8.isControlChar_16;
   FB Unicode8.isControlChar_32;
   FB Unicode8.isWhitespaceChar_8;
   FB Unicode8.isWhitespaceChar_16;
   FB Unicode8.isWhitespaceChar_32;
   FZ Char Unicode8.toLowerC;
   FZ Char16 Unicode8.toLower0100;
   FZ Char16 Unicode8.toLower0200;
   FZ Char16 Unicode8.toLower0300;
   FZ Char16 Unicode8.toLower0400;
   FZ Char16 Unicode8.toLower0500;
   FZ Char16 Unicode8.toLower1000;
   FZ Char16 Unicode8.toLower2000;
   FZ Char16 Unicode8.toLowerA000;
   FZ Char16 Unicode8.toLowerF000;
   FZ Char16 Unicode8.toLower2;
   FZ Char32 Unicode8.toLower;
   FZ Char32 Unicode8.turkicToLower].

Ltac by_kernel := match goal with |- _ = ?y => exact_no_check (@eq_refl _ y) end.

Lemma translated : compiles [] Bits8.functions translations.
Proof. repeat (split; [by_kernel|]). exact I. Qed.

Lemma all_found : Forall (found nothing Bits8.functions) Bits8.functions.
Proof. repeat (constructor; [intros z; split; [reflexivity | by_kernel]|]). constructor. Qed.

Lemma provided : provides Bits8.functions tables8.
Proof.
  apply (provides_from _ translations _ [111; 112; 113; 114; 115; 116; 117; 118; 119; 120; 133; 132]%nat all_found translated).
  - repeat (constructor; [eexists; split; [reflexivity | split; [eexists; reflexivity | split; reflexivity]]|]). constructor.
  - repeat (constructor; [reflexivity|]). constructor.
  - intros []; repeat (constructor; [reflexivity|]); constructor.
Qed.
