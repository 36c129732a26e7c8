(* Written by tools/bitsproof.py: the parsed functions of source/bits9 do what Gen/Unicode9.v says. *)
From Coq Require Import ZArith List String.
From Verif.Model Require Import Tables.
From Verif.Cxx Require Import Syntax Semantics Linked.
From Verif.Gen Require Bits9 Unicode9.
From Verif.Proof Require Import CxxPure CxxLinked.
Import ListNotations.

Definition translations : list fn :=
  [FB Unicode9.isInTheGap0003;
   FB Unicode9.isInTheGap0005;
   FB Unicode9.isInTheGap0006;
   FB Unicode9.isInTheGap0007;
   FB Unicode9.isInTheGap0008;
   FB Unicode9.isInTheGap0009;
   FB Unicode9.isInTheGap000A;
   FB Unicode9.isInTheGap000B;
   FB Unicode9.isInTheGap000C;
   FB Unicode9.isInTheGap000D;
   FB Unicode9.isInTheGap000E;
   FB Unicode9.isInTheGap000F;
   FB Unicode9.isInTheGap0010;
   FB Unicode9.isInTheGap0012;
   FB Unicode9.isInTheGap0013;
   FB Unicode9.isInTheGap0016;
   FB Unicode9.isInTheGap0017;
   FB Unicode9.isInTheGap0018;
   FB Unicode9.isInTheGap0019;
   FB Unicode9.isInTheGap001A;
   FB Unicode9.isInTheGap001B;
   FB Unicode9.isInTheGap001C;
   FB Unicode9.isInTheGap001D;
   FB Unicode9.isInTheGap001F;
   FB Unicode9.isInTheGap0020;
   FB Unicode9.isInTheGap0021;
   FB Unicode9.isInTheGap0023;
   FB Unicode9.isInTheGap0024;
   FB Unicode9.isInTheGap002B;
   FB Unicode9.isInTheGap002C;
   FB Unicode9.isInTheGap002D;
   FB Unicode9.isInTheGap002E;
   FB Unicode9.isInTheGap002F;
   FB Unicode9.isInTheGap0030;
   FB Unicode9.isInTheGap0031;
   FB Unicode9.isInTheGap0032;
   FB Unicode9.isInTheGap004D;
   FB Unicode9.isInTheGap009F;
   FB Unicode9.isInTheGap00A4;
   FB Unicode9.isInTheGap00A6;
   FB Unicode9.isInTheGap00A7;
   FB Unicode9.isInTheGap00A8;
   FB Unicode9.isInTheGap00A9;
   FB Unicode9.isInTheGap00AA;
   FB Unicode9.isInTheGap00AB;
   FB Unicode9.isInTheGap00D7_DF;
   FB Unicode9.isInTheGap00FA;
   FB Unicode9.isInTheGap00FB;
   FB Unicode9.isInTheGap00FD;
   FB Unicode9.isInTheGap00FE;
   FB Unicode9.isInTheGap00FF;
   FB Unicode9.isInTheGap0100;
   FB Unicode9.isInTheGap0101;
   FB Unicode9.isInTheGap0102;
   FB Unicode9.isInTheGap0103;
   FB Unicode9.isInTheGap0104;
   FB Unicode9.isInTheGap0105;
   FB Unicode9.isInTheGap0107;
   FB Unicode9.isInTheGap0108;
   FB Unicode9.isInTheGap0109;
   FB Unicode9.isInTheGap010A;
   FB Unicode9.isInTheGap010B;
   FB Unicode9.isInTheGap010C;
   FB Unicode9.isInTheGap010E;
   FB Unicode9.isInTheGap0110;
   FB Unicode9.isInTheGap0111;
   FB Unicode9.isInTheGap0112;
   FB Unicode9.isInTheGap0113;
   FB Unicode9.isInTheGap0114;
   FB Unicode9.isInTheGap0115;
   FB Unicode9.isInTheGap0116;
   FB Unicode9.isInTheGap0117;
   FB Unicode9.isInTheGap0118;
   FB Unicode9.isInTheGap011A;
   FB Unicode9.isInTheGap011C;
   FB Unicode9.isInTheGap0123;
   FB Unicode9.isInTheGap0124;
   FB Unicode9.isInTheGap0125;
   FB Unicode9.isInTheGap0134;
   FB Unicode9.isInTheGap0146;
   FB Unicode9.isInTheGap016A;
   FB Unicode9.isInTheGap016B;
   FB Unicode9.isInTheGap016F;
   FB Unicode9.isInTheGap0187;
   FB Unicode9.isInTheGap018A;
   FB Unicode9.isInTheGap01B0;
   FB Unicode9.isInTheGap01BC;
   FB Unicode9.isInTheGap01D0;
   FB Unicode9.isInTheGap01D1;
   FB Unicode9.isInTheGap01D2;
   FB Unicode9.isInTheGap01D3;
   FB Unicode9.isInTheGap01D4;
   FB Unicode9.isInTheGap01D5;
   FB Unicode9.isInTheGap01D6;
   FB Unicode9.isInTheGap01D7;
   FB Unicode9.isInTheGap01DA;
   FB Unicode9.isInTheGap01E0;
   FB Unicode9.isInTheGap01E8;
   FB Unicode9.isInTheGap01E9;
   FB Unicode9.isInTheGap01EE;
   FB Unicode9.isInTheGap01F0;
   FB Unicode9.isInTheGap01F1;
   FB Unicode9.isInTheGap01F2;
   FB Unicode9.isInTheGap01F6;
   FB Unicode9.isInTheGap01F7;
   FB Unicode9.isInTheGap01F8;
   FB Unicode9.isInTheGap01F9;
   FB Unicode9.isInTheGap01;
   FB Unicode9.isInTheGap02A6;
   FB Unicode9.isInTheGap02B7;
   FB Unicode9.isInTheGap02B8;
   FB Unicode9.isInTheGap02CE;
   FB Unicode9.isInTheGap02FA;
   FB Unicode9.isInTheGap02;
   FB Unicode9.isInTheGap0E;
   FB Unicode9.isUnicodeAssigned_16;
   FB Unicode9.isUnicodeAssigned_32;
   FB Unicode9.isUnicodePrivate_16;
   FB Unicode9.isUnicodePrivate_32;
   FB Unicode9.isControlChar_8;
   FB Unicode9.isControlChar_16;
   FB Unicode9.isControlChar_32;
   FB Unicode9.isWhitespaceChar_8;
   FB Unicode9.isWhitespaceChar_16;
   FB Unicode9.isWhitespaceChar_32;
   FZ Char Unicode9.toLowerC;
   FZ Char16 Unicode9.toLower0100;
   FZ Char16 Unicode9.toLower0200;
   FZ Char16 Unicode9.toLower0300;
   FZ Char16 Unicode9.toLower0400;
   FZ Char16 Unicode9.toLower0500;
   FZ Char16 Unicode9.toLower1000;
   FZ Char16 Unicode9.toLower2000;
   FZ Char16 Unicode9.toLowerA000;
   FZ Char16 Unicode9.toLowerF000;
   FZ Char16 Unicode9.toLower2;
   FZ Char32 Unicode9.toLower;
   FZ Char32 Unicode9.turkicToLower].

Ltac by_kernel := match goal with |- _ = ?y => exact_no_check (@eq_refl _ y) end.

Lemma translated : compiles [] Bits9.functions translations.
Proof. repeat (split; [by_kernel|]). exact I. Qed.

Lemma all_found : Forall (found nothing Bits9.functions) Bits9.functions.
Proof. repeat (constructor; [intros z; split; [reflexivity | by_kernel]|]). constructor. Qed.

Lemma provided : provides Bits9.functions tables9.
Proof.
  apply (provides_from _ translations _ [115; 116; 117; 118; 119; 120; 121; 122; 123; 124; 137; 136]%nat all_found translated).
  - repeat (constructor; [eexists; split; [reflexivity | split; [eexists; reflexivity | split; reflexivity]]|]). constructor.
  - repeat (constructor; [reflexivity|]). constructor.
  - intros []; repeat (constructor; [reflexivity|]); constructor.
Qed.
