(* Written by tools/bitsproof.py: the parsed functions of source/bits13 do what Gen/Unicode13.v says. *)
From Coq Require Import ZArith List String.
From Verif.Model Require Import Tables.
From Verif.Cxx Require Import Syntax Semantics Linked.
From Verif.Gen Require Bits13 Unicode13.
From Verif.Proof Require Import CxxPure CxxLinked.
Import ListNotations.

Definition translations : list fn :=
  [FB Unicode13.isInTheGap0003;
   FB Unicode13.isInTheGap0005;
   FB Unicode13.isInTheGap0006;
   FB Unicode13.isInTheGap0007;
   FB Unicode13.isInTheGap0008;
   FB Unicode13.isInTheGap0009;
   FB Unicode13.isInTheGap000A;
   FB Unicode13.isInTheGap000B;
   FB Unicode13.isInTheGap000C;
   FB Unicode13.isInTheGap000D;
   FB Unicode13.isInTheGap000E;
   FB Unicode13.isInTheGap000F;
   FB Unicode13.isInTheGap0010;
   FB Unicode13.isInTheGap0012;
   FB Unicode13.isInTheGap0013;
   FB Unicode13.isInTheGap0016;
   FB Unicode13.isInTheGap0017;
   FB Unicode13.isInTheGap0018;
   FB Unicode13.isInTheGap0019;
   FB Unicode13.isInTheGap001A;
   FB Unicode13.isInTheGap001B;
   FB Unicode13.isInTheGap001C;
   FB Unicode13.isInTheGap001F;
   FB Unicode13.isInTheGap0020;
   FB Unicode13.isInTheGap0021;
   FB Unicode13.isInTheGap0024;
   FB Unicode13.isInTheGap002B;
   FB Unicode13.isInTheGap002C;
   FB Unicode13.isInTheGap002D;
   FB Unicode13.isInTheGap002E;
   FB Unicode13.isInTheGap002F;
   FB Unicode13.isInTheGap0030;
   FB Unicode13.isInTheGap0031;
   FB Unicode13.isInTheGap0032;
   FB Unicode13.isInTheGap009F;
   FB Unicode13.isInTheGap00A4;
   FB Unicode13.isInTheGap00A6;
   FB Unicode13.isInTheGap00A7;
   FB Unicode13.isInTheGap00A8;
   FB Unicode13.isInTheGap00A9;
   FB Unicode13.isInTheGap00AA;
   FB Unicode13.isInTheGap00AB;
   FB Unicode13.isInTheGap00D7_DF;
   FB Unicode13.isInTheGap00FA;
   FB Unicode13.isInTheGap00FB;
   FB Unicode13.isInTheGap00FD;
   FB Unicode13.isInTheGap00FE;
   FB Unicode13.isInTheGap00FF;
   FB Unicode13.isInTheGap0100;
   FB Unicode13.isInTheGap0101;
   FB Unicode13.isInTheGap0102;
   FB Unicode13.isInTheGap0103;
   FB Unicode13.isInTheGap0104;
   FB Unicode13.isInTheGap0105;
   FB Unicode13.isInTheGap0107;
   FB Unicode13.isInTheGap0108;
   FB Unicode13.isInTheGap0109;
   FB Unicode13.isInTheGap010A;
   FB Unicode13.isInTheGap010B;
   FB Unicode13.isInTheGap010C;
   FB Unicode13.isInTheGap010D;
   FB Unicode13.isInTheGap010E;
   FB Unicode13.isInTheGap010F;
   FB Unicode13.isInTheGap0110;
   FB Unicode13.isInTheGap0111;
   FB Unicode13.isInTheGap0112;
   FB Unicode13.isInTheGap0113;
   FB Unicode13.isInTheGap0114;
   FB Unicode13.isInTheGap0115;
   FB Unicode13.isInTheGap0116;
   FB Unicode13.isInTheGap0117;
   FB Unicode13.isInTheGap0118;
   FB Unicode13.isInTheGap0119;
   FB Unicode13.isInTheGap011A;
   FB Unicode13.isInTheGap011C;
   FB Unicode13.isInTheGap011D;
   FB Unicode13.isInTheGap011E;
   FB Unicode13.isInTheGap011F;
   FB Unicode13.isInTheGap0123;
   FB Unicode13.isInTheGap0124;
   FB Unicode13.isInTheGap0125;
   FB Unicode13.isInTheGap0134;
   FB Unicode13.isInTheGap0146;
   FB Unicode13.isInTheGap016A;
   FB Unicode13.isInTheGap016B;
   FB Unicode13.isInTheGap016E;
   FB Unicode13.isInTheGap016F;
   FB Unicode13.isInTheGap0187;
   FB Unicode13.isInTheGap018C;
   FB Unicode13.isInTheGap018D;
   FB Unicode13.isInTheGap01B1;
   FB Unicode13.isInTheGap01B2;
   FB Unicode13.isInTheGap01BC;
   FB Unicode13.isInTheGap01D0;
   FB Unicode13.isInTheGap01D1;
   FB Unicode13.isInTheGap01D2;
   FB Unicode13.isInTheGap01D3;
   FB Unicode13.isInTheGap01D4;
   FB Unicode13.isInTheGap01D5;
   FB Unicode13.isInTheGap01D6;
   FB Unicode13.isInTheGap01D7;
   FB Unicode13.isInTheGap01DA;
   FB Unicode13.isInTheGap01E0;
   FB Unicode13.isInTheGap01E1;
   FB Unicode13.isInTheGap01E2;
   FB Unicode13.isInTheGap01E8;
   FB Unicode13.isInTheGap01E9;
   FB Unicode13.isInTheGap01EC;
   FB Unicode13.isInTheGap01ED;
   FB Unicode13.isInTheGap01EE;
   FB Unicode13.isInTheGap01F0;
   FB Unicode13.isInTheGap01F1;
   FB Unicode13.isInTheGap01F2;
   FB Unicode13.isInTheGap01F6;
   FB Unicode13.isInTheGap01F7;
   FB Unicode13.isInTheGap01F8;
   FB Unicode13.isInTheGap01F9;
   FB Unicode13.isInTheGap01FA;
   FB Unicode13.isInTheGap01FB;
   FB Unicode13.isInTheGap01;
   FB Unicode13.isInTheGap02A6;
   FB Unicode13.isInTheGap02B7;
   FB Unicode13.isInTheGap02B8;
   FB Unicode13.isInTheGap02CE;
   FB Unicode13.isInTheGap02EB;
   FB Unicode13.isInTheGap02FA;
   FB Unicode13.isInTheGap02;
   FB Unicode13.isInTheGap03;
   FB Unicode13.isInTheGap0E;
   FB Unicode13.isUnicodeAssigned_16;
   FB Unicode13.isUnicodeAssigned_32;
   FB Unicode13.isUnicodePrivate_16;
   FB Unicode13.isUnicodePrivate_32;
   FB Unicode13.isControlChar_8;
   FB Unicode13.isControlChar_16;
   FB Unicode13.isControlChar_32;
   FB Unicode13.isWhitespaceChar_8;
   FB Unicode13.isWhitespaceChar_16;
   FB Unicode13.isWhitespaceChar_32;
   FZ Char Unicode13.toLowerC;
   FZ Char16 Unicode13.toLower0100;
   FZ Char16 Unicode13.toLower0200;
   FZ Char16 Unicode13.toLower0300;
   FZ Char16 Unicode13.toLower0400;
   FZ Char16 Unicode13.toLower0500;
   FZ Char16 Unicode13.toLower1000;
   FZ Char16 Unicode13.toLower2000;
   FZ Char16 Unicode13.toLowerA000;
   FZ Char16 Unicode13.toLowerF000;
   FZ Char16 Unicode13.toLower2;
   FZ Char32 Unicode13.toLower;
   FZ Char32 Unicode13.turkicToLower].

Ltac by_kernel := match goal with |- _ = ?y => exact_no_check (@eq_refl _ y) end.

Lemma translated : compiles [] Bits13.functions translations.
Proof. repeat (split; [by_kernel|]). exact I. Qed.

Lemma all_found : Forall (found nothing Bits13.functions) Bits13.functions.
Proof. repeat (constructor; [intros z; split; [reflexivity | by_kernel]|]). constructor. Qed.

Lemma provided : provides Bits13.functions tables13.
Proof.
  apply (provides_from _ translations _ [129; 130; 131; 132; 133; 134; 135; 136; 137; 138; 151; 150]%nat all_found translated).
  - repeat (constructor; [eexists; split; [reflexivity | split; [eexists; reflexivity | split; reflexivity]]|]). constructor.
  - repeat (constructor; [reflexivity|]). constructor.
  - intros []; repeat (constructor; [reflexivity|]); constructor.
Qed.
