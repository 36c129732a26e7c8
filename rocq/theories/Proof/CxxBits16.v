(* Written by tools/bitsproof.py: the parsed functions of source/bits16 do what Gen/Unicode16.v says. *)
From Coq Require Import ZArith List String.
From Verif.Model Require Import Tables.
From Verif.Cxx Require Import Syntax Semantics Linked.
From Verif.Gen Require Bits16 Unicode16.
From Verif.Proof Require Import CxxPure CxxLinked.
Import ListNotations.

Definition translations : list fn :=
  [FB Unicode16.isInTheGap0003;
   FB Unicode16.isInTheGap0005;
   FB Unicode16.isInTheGap0007;
   FB Unicode16.isInTheGap0008;
   FB Unicode16.isInTheGap0009;
   FB Unicode16.isInTheGap000A;
   FB Unicode16.isInTheGap000B;
   FB Unicode16.isInTheGap000C;
   FB Unicode16.isInTheGap000D;
   FB Unicode16.isInTheGap000E;
   FB Unicode16.isInTheGap000F;
   FB Unicode16.isInTheGap0010;
   FB Unicode16.isInTheGap0012;
   FB Unicode16.isInTheGap0013;
   FB Unicode16.isInTheGap0016;
   FB Unicode16.isInTheGap0017;
   FB Unicode16.isInTheGap0018;
   FB Unicode16.isInTheGap0019;
   FB Unicode16.isInTheGap001A;
   FB Unicode16.isInTheGap001B;
   FB Unicode16.isInTheGap001C;
   FB Unicode16.isInTheGap001F;
   FB Unicode16.isInTheGap0020;
   FB Unicode16.isInTheGap0021;
   FB Unicode16.isInTheGap0024;
   FB Unicode16.isInTheGap002B;
   FB Unicode16.isInTheGap002C;
   FB Unicode16.isInTheGap002D;
   FB Unicode16.isInTheGap002E;
   FB Unicode16.isInTheGap002F;
   FB Unicode16.isInTheGap0030;
   FB Unicode16.isInTheGap0031;
   FB Unicode16.isInTheGap0032;
   FB Unicode16.isInTheGap00A4;
   FB Unicode16.isInTheGap00A6;
   FB Unicode16.isInTheGap00A7;
   FB Unicode16.isInTheGap00A8;
   FB Unicode16.isInTheGap00A9;
   FB Unicode16.isInTheGap00AA;
   FB Unicode16.isInTheGap00AB;
   FB Unicode16.isInTheGap00D7_DF;
   FB Unicode16.isInTheGap00FA;
   FB Unicode16.isInTheGap00FB;
   FB Unicode16.isInTheGap00FD;
   FB Unicode16.isInTheGap00FE;
   FB Unicode16.isInTheGap00FF;
   FB Unicode16.isInTheGap0100;
   FB Unicode16.isInTheGap0101;
   FB Unicode16.isInTheGap0102;
   FB Unicode16.isInTheGap0103;
   FB Unicode16.isInTheGap0104;
   FB Unicode16.isInTheGap0105;
   FB Unicode16.isInTheGap0107;
   FB Unicode16.isInTheGap0108;
   FB Unicode16.isInTheGap0109;
   FB Unicode16.isInTheGap010A;
   FB Unicode16.isInTheGap010B;
   FB Unicode16.isInTheGap010C;
   FB Unicode16.isInTheGap010D;
   FB Unicode16.isInTheGap010E;
   FB Unicode16.isInTheGap010F;
   FB Unicode16.isInTheGap0110;
   FB Unicode16.isInTheGap0111;
   FB Unicode16.isInTheGap0112;
   FB Unicode16.isInTheGap0113;
   FB Unicode16.isInTheGap0114;
   FB Unicode16.isInTheGap0115;
   FB Unicode16.isInTheGap0116;
   FB Unicode16.isInTheGap0117;
   FB Unicode16.isInTheGap0118;
   FB Unicode16.isInTheGap0119;
   FB Unicode16.isInTheGap011A;
   FB Unicode16.isInTheGap011B;
   FB Unicode16.isInTheGap011C;
   FB Unicode16.isInTheGap011D;
   FB Unicode16.isInTheGap011E;
   FB Unicode16.isInTheGap011F;
   FB Unicode16.isInTheGap0123;
   FB Unicode16.isInTheGap0124;
   FB Unicode16.isInTheGap0125;
   FB Unicode16.isInTheGap012F;
   FB Unicode16.isInTheGap0146;
   FB Unicode16.isInTheGap016A;
   FB Unicode16.isInTheGap016B;
   FB Unicode16.isInTheGap016D;
   FB Unicode16.isInTheGap016E;
   FB Unicode16.isInTheGap016F;
   FB Unicode16.isInTheGap0187;
   FB Unicode16.isInTheGap018C;
   FB Unicode16.isInTheGap018D;
   FB Unicode16.isInTheGap01B1;
   FB Unicode16.isInTheGap01B2;
   FB Unicode16.isInTheGap01BC;
   FB Unicode16.isInTheGap01CC;
   FB Unicode16.isInTheGap01CE;
   FB Unicode16.isInTheGap01CF;
   FB Unicode16.isInTheGap01D0;
   FB Unicode16.isInTheGap01D1;
   FB Unicode16.isInTheGap01D2;
   FB Unicode16.isInTheGap01D3;
   FB Unicode16.isInTheGap01D4;
   FB Unicode16.isInTheGap01D5;
   FB Unicode16.isInTheGap01D6;
   FB Unicode16.isInTheGap01D7;
   FB Unicode16.isInTheGap01DA;
   FB Unicode16.isInTheGap01DF;
   FB Unicode16.isInTheGap01E0;
   FB Unicode16.isInTheGap01E1;
   FB Unicode16.isInTheGap01E2;
   FB Unicode16.isInTheGap01E4;
   FB Unicode16.isInTheGap01E5;
   FB Unicode16.isInTheGap01E7;
   FB Unicode16.isInTheGap01E8;
   FB Unicode16.isInTheGap01E9;
   FB Unicode16.isInTheGap01EC;
   FB Unicode16.isInTheGap01ED;
   FB Unicode16.isInTheGap01EE;
   FB Unicode16.isInTheGap01F0;
   FB Unicode16.isInTheGap01F1;
   FB Unicode16.isInTheGap01F2;
   FB Unicode16.isInTheGap01F6;
   FB Unicode16.isInTheGap01F7;
   FB Unicode16.isInTheGap01F8;
   FB Unicode16.isInTheGap01FA;
   FB Unicode16.isInTheGap01FB;
   FB Unicode16.isInTheGap01;
   FB Unicode16.isInTheGap02B7;
   FB Unicode16.isInTheGap02B8;
   FB Unicode16.isInTheGap02CE;
   FB Unicode16.isInTheGap02EB;
   FB Unicode16.isInTheGap02EE;
   FB Unicode16.isInTheGap02FA;
   FB Unicode16.isInTheGap02;
   FB Unicode16.isInTheGap03;
   FB Unicode16.isInTheGap0E;
   FB Unicode16.isUnicodeAssigned_16;
   FB Unicode16.isUnicodeAssigned_32;
   FB Unicode16.isUnicodePrivate_16;
   FB Unicode16.isUnicodePrivate_32;
   FB Unicode16.isControlChar_8;
   FB Unicode16.isControlChar_16;
   FB Unicode16.isControlChar_32;
   FB Unicode16.isWhitespaceChar_8;
   FB Unicode16.isWhitespaceChar_16;
   FB Unicode16.isWhitespaceChar_32;
   FZ Char Unicode16.toLowerC;
   FZ Char16 Unicode16.toLower0100;
   FZ Char16 Unicode16.toLower0200;
   FZ Char16 Unicode16.toLower0300;
   FZ Char16 Unicode16.toLower0400;
   FZ Char16 Unicode16.toLower0500;
   FZ Char16 Unicode16.toLower1000;
   FZ Char16 Unicode16.toLower2000;
   FZ Char16 Unicode16.toLowerA000;
   FZ Char16 Unicode16.toLowerF000;
   FZ Char16 Unicode16.toLower2;
   FZ Char32 Unicode16.toLower;
   FZ Char32 Unicode16.turkicToLower].

Ltac by_kernel := match goal with |- _ = ?y => exact_no_check (@eq_refl _ y) end.

Lemma translated : compiles [] Bits16.functions translations.
Proof. repeat (split; [by_kernel|]). exact I. Qed.

Lemma all_found : Forall (found nothing Bits16.functions) Bits16.functions.
Proof. repeat (constructor; [intros z; split; [reflexivity | by_kernel]|]). constructor. Qed.

Lemma provided : provides Bits16.functions tables16.
Proof.
  apply (provides_from _ translations _ [135; 136; 137; 138; 139; 140; 141; 142; 143; 144; 157; 156]%nat all_found translated).
  - repeat (constructor; [eexists; split; [reflexivity | split; [eexists; reflexivity | split; reflexivity]]|]). constructor.
  - repeat (constructor; [reflexivity|]). constructor.
  - intros []; repeat (constructor; [reflexivity|]); constructor.
Qed.
