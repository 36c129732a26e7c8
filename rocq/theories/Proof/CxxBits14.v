(* Written by tools/bitsproof.py: the parsed functions of source/bits14 do what Gen/Unicode14.v says. *)
From Coq Require Import ZArith List String.
From Verif.Model Require Import Tables.
From Verif.Cxx Require Import Syntax Semantics Linked.
From Verif.Gen Require Bits14 Unicode14.
From Verif.Proof Require Import CxxPure CxxLinked.
Import ListNotations.

Definition translations : list fn :=
  [FB Unicode14.isInTheGap0003;
   FB Unicode14.isInTheGap0005;
   FB Unicode14.isInTheGap0007;
   FB Unicode14.isInTheGap0008;
   FB Unicode14.isInTheGap0009;
   FB Unicode14.isInTheGap000A;
   FB Unicode14.isInTheGap000B;
   FB Unicode14.isInTheGap000C;
   FB Unicode14.isInTheGap000D;
   FB Unicode14.isInTheGap000E;
   FB Unicode14.isInTheGap000F;
   FB Unicode14.isInTheGap0010;
   FB Unicode14.isInTheGap0012;
   FB Unicode14.isInTheGap0013;
   FB Unicode14.isInTheGap0016;
   FB Unicode14.isInTheGap0017;
   FB Unicode14.isInTheGap0018;
   FB Unicode14.isInTheGap0019;
   FB Unicode14.isInTheGap001A;
   FB Unicode14.isInTheGap001B;
   FB Unicode14.isInTheGap001C;
   FB Unicode14.isInTheGap001F;
   FB Unicode14.isInTheGap0020;
   FB Unicode14.isInTheGap0021;
   FB Unicode14.isInTheGap0024;
   FB Unicode14.isInTheGap002B;
   FB Unicode14.isInTheGap002C;
   FB Unicode14.isInTheGap002D;
   FB Unicode14.isInTheGap002E;
   FB Unicode14.isInTheGap002F;
   FB Unicode14.isInTheGap0030;
   FB Unicode14.isInTheGap0031;
   FB Unicode14.isInTheGap0032;
   FB Unicode14.isInTheGap00A4;
   FB Unicode14.isInTheGap00A6;
   FB Unicode14.isInTheGap00A7;
   FB Unicode14.isInTheGap00A8;
   FB Unicode14.isInTheGap00A9;
   FB Unicode14.isInTheGap00AA;
   FB Unicode14.isInTheGap00AB;
   FB Unicode14.isInTheGap00D7_DF;
   FB Unicode14.isInTheGap00FA;
   FB Unicode14.isInTheGap00FB;
   FB Unicode14.isInTheGap00FD;
   FB Unicode14.isInTheGap00FE;
   FB Unicode14.isInTheGap00FF;
   FB Unicode14.isInTheGap0100;
   FB Unicode14.isInTheGap0101;
   FB Unicode14.isInTheGap0102;
   FB Unicode14.isInTheGap0103;
   FB Unicode14.isInTheGap0104;
   FB Unicode14.isInTheGap0105;
   FB Unicode14.isInTheGap0107;
   FB Unicode14.isInTheGap0108;
   FB Unicode14.isInTheGap0109;
   FB Unicode14.isInTheGap010A;
   FB Unicode14.isInTheGap010B;
   FB Unicode14.isInTheGap010C;
   FB Unicode14.isInTheGap010D;
   FB Unicode14.isInTheGap010E;
   FB Unicode14.isInTheGap010F;
   FB Unicode14.isInTheGap0110;
   FB Unicode14.isInTheGap0111;
   FB Unicode14.isInTheGap0112;
   FB Unicode14.isInTheGap0113;
   FB Unicode14.isInTheGap0114;
   FB Unicode14.isInTheGap0115;
   FB Unicode14.isInTheGap0116;
   FB Unicode14.isInTheGap0117;
   FB Unicode14.isInTheGap0118;
   FB Unicode14.isInTheGap0119;
   FB Unicode14.isInTheGap011A;
   FB Unicode14.isInTheGap011C;
   FB Unicode14.isInTheGap011D;
   FB Unicode14.isInTheGap011E;
   FB Unicode14.isInTheGap011F;
   FB Unicode14.isInTheGap0123;
   FB Unicode14.isInTheGap0124;
   FB Unicode14.isInTheGap0125;
   FB Unicode14.isInTheGap012F;
   FB Unicode14.isInTheGap0134;
   FB Unicode14.isInTheGap0146;
   FB Unicode14.isInTheGap016A;
   FB Unicode14.isInTheGap016B;
   FB Unicode14.isInTheGap016E;
   FB Unicode14.isInTheGap016F;
   FB Unicode14.isInTheGap0187;
   FB Unicode14.isInTheGap018C;
   FB Unicode14.isInTheGap018D;
   FB Unicode14.isInTheGap01B1;
   FB Unicode14.isInTheGap01B2;
   FB Unicode14.isInTheGap01BC;
   FB Unicode14.isInTheGap01CF;
   FB Unicode14.isInTheGap01D0;
   FB Unicode14.isInTheGap01D1;
   FB Unicode14.isInTheGap01D2;
   FB Unicode14.isInTheGap01D3;
   FB Unicode14.isInTheGap01D4;
   FB Unicode14.isInTheGap01D5;
   FB Unicode14.isInTheGap01D6;
   FB Unicode14.isInTheGap01D7;
   FB Unicode14.isInTheGap01DA;
   FB Unicode14.isInTheGap01DF;
   FB Unicode14.isInTheGap01E0;
   FB Unicode14.isInTheGap01E1;
   FB Unicode14.isInTheGap01E2;
   FB Unicode14.isInTheGap01E7;
   FB Unicode14.isInTheGap01E8;
   FB Unicode14.isInTheGap01E9;
   FB Unicode14.isInTheGap01EC;
   FB Unicode14.isInTheGap01ED;
   FB Unicode14.isInTheGap01EE;
   FB Unicode14.isInTheGap01F0;
   FB Unicode14.isInTheGap01F1;
   FB Unicode14.isInTheGap01F2;
   FB Unicode14.isInTheGap01F6;
   FB Unicode14.isInTheGap01F7;
   FB Unicode14.isInTheGap01F8;
   FB Unicode14.isInTheGap01FA;
   FB Unicode14.isInTheGap01FB;
   FB Unicode14.isInTheGap01;
   FB Unicode14.isInTheGap02B7;
   FB Unicode14.isInTheGap02B8;
   FB Unicode14.isInTheGap02CE;
   FB Unicode14.isInTheGap02EB;
   FB Unicode14.isInTheGap02FA;
   FB Unicode14.isInTheGap02;
   FB Unicode14.isInTheGap03;
   FB Unicode14.isInTheGap0E;
   FB Unicode14.isUnicodeAssigned_16;
   FB Unicode14.isUnicodeAssigned_32;
   FB Unicode14.isUnicodePrivate_16;
   FB Unicode14.isUnicodePrivate_32;
   FB Unicode14.isControlChar_8;
   FB Unicode14.isControlChar_16;
   FB Unicode14.isControlChar_32;
   FB Unicode14.isWhitespaceChar_8;
   FB Unicode14.isWhitespaceChar_16;
   FB Unicode14.isWhitespaceChar_32;
   FZ Char Unicode14.toLowerC;
   FZ Char16 Unicode14.toLower0100;
   FZ Char16 Unicode14.toLower0200;
   FZ Char16 Unicode14.toLower0300;
   FZ Char16 Unicode14.toLower0400;
   FZ Char16 Unicode14.toLower0500;
   FZ Char16 Unicode14.toLower1000;
   FZ Char16 Unicode14.toLower2000;
   FZ Char16 Unicode14.toLowerA000;
   FZ Char16 Unicode14.toLowerF000;
   FZ Char16 Unicode14.toLower2;
   FZ Char32 Unicode14.toLower;
   FZ Char32 Unicode14.turkicToLower].

Ltac by_kernel := match goal with |- _ = ?y => exact_no_check (@eq_refl _ y) end.

Lemma translated : compiles [] Bits14.functions translations.
Proof. repeat (split; [by_kernel|]). exact I. Qed.

Lemma all_found : Forall (found nothing Bits14.functions) Bits14.functions.
Proof. repeat (constructor; [intros z; split; [reflexivity | by_kernel]|]). constructor. Qed.

Lemma provided : provides Bits14.functions tables14.
Proof.
  apply (provides_from _ translations _ [129; 130; 131; 132; 133; 134; 135; 136; 137; 138; 151; 150]%nat all_found translated).
  - repeat (constructor; [eexists; split; [reflexivity | split; [eexists; reflexivity | split; reflexivity]]|]). constructor.
  - repeat (constructor; [reflexivity|]). constructor.
  - intros []; repeat (constructor; [reflexivity|]); constructor.
Qed.
