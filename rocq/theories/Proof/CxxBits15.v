(* Written by tools/bitsproof.py: the parsed functions of source/bits15 do what Gen/Unicode15.v says. *)
From Coq Require Import ZArith List String.
From Verif.Model Require Import Tables.
From Verif.Cxx Require Import Syntax Semantics Linked.
From Verif.Gen Require Bits15 Unicode15.
From Verif.Proof Require Import CxxPure CxxLinked.
Import ListNotations.

Definition translations : list fn :=
  [FB Unicode15.isInTheGap0003;
   FB Unicode15.isInTheGap0005;
   FB Unicode15.isInTheGap0007;
   FB Unicode15.isInTheGap0008;
   FB Unicode15.isInTheGap0009;
   FB Unicode15.isInTheGap000A;
   FB Unicode15.isInTheGap000B;
   FB Unicode15.isInTheGap000C;
   FB Unicode15.isInTheGap000D;
   FB Unicode15.isInTheGap000E;
   FB Unicode15.isInTheGap000F;
   FB Unicode15.isInTheGap0010;
   FB Unicode15.isInTheGap0012;
   FB Unicode15.isInTheGap0013;
   FB Unicode15.isInTheGap0016;
   FB Unicode15.isInTheGap0017;
   FB Unicode15.isInTheGap0018;
   FB Unicode15.isInTheGap0019;
   FB Unicode15.isInTheGap001A;
   FB Unicode15.isInTheGap001B;
   FB Unicode15.isInTheGap001C;
   FB Unicode15.isInTheGap001F;
   FB Unicode15.isInTheGap0020;
   FB Unicode15.isInTheGap0021;
   FB Unicode15.isInTheGap0024;
   FB Unicode15.isInTheGap002B;
   FB Unicode15.isInTheGap002C;
   FB Unicode15.isInTheGap002D;
   FB Unicode15.isInTheGap002E;
   FB Unicode15.isInTheGap002F;
   FB Unicode15.isInTheGap0030;
   FB Unicode15.isInTheGap0031;
   FB Unicode15.isInTheGap0032;
   FB Unicode15.isInTheGap00A4;
   FB Unicode15.isInTheGap00A6;
   FB Unicode15.isInTheGap00A7;
   FB Unicode15.isInTheGap00A8;
   FB Unicode15.isInTheGap00A9;
   FB Unicode15.isInTheGap00AA;
   FB Unicode15.isInTheGap00AB;
   FB Unicode15.isInTheGap00D7_DF;
   FB Unicode15.isInTheGap00FA;
   FB Unicode15.isInTheGap00FB;
   FB Unicode15.isInTheGap00FD;
   FB Unicode15.isInTheGap00FE;
   FB Unicode15.isInTheGap00FF;
   FB Unicode15.isInTheGap0100;
   FB Unicode15.isInTheGap0101;
   FB Unicode15.isInTheGap0102;
   FB Unicode15.isInTheGap0103;
   FB Unicode15.isInTheGap0104;
   FB Unicode15.isInTheGap0105;
   FB Unicode15.isInTheGap0107;
   FB Unicode15.isInTheGap0108;
   FB Unicode15.isInTheGap0109;
   FB Unicode15.isInTheGap010A;
   FB Unicode15.isInTheGap010B;
   FB Unicode15.isInTheGap010C;
   FB Unicode15.isInTheGap010D;
   FB Unicode15.isInTheGap010E;
   FB Unicode15.isInTheGap010F;
   FB Unicode15.isInTheGap0110;
   FB Unicode15.isInTheGap0111;
   FB Unicode15.isInTheGap0112;
   FB Unicode15.isInTheGap0113;
   FB Unicode15.isInTheGap0114;
   FB Unicode15.isInTheGap0115;
   FB Unicode15.isInTheGap0116;
   FB Unicode15.isInTheGap0117;
   FB Unicode15.isInTheGap0118;
   FB Unicode15.isInTheGap0119;
   FB Unicode15.isInTheGap011A;
   FB Unicode15.isInTheGap011B;
   FB Unicode15.isInTheGap011C;
   FB Unicode15.isInTheGap011D;
   FB Unicode15.isInTheGap011E;
   FB Unicode15.isInTheGap011F;
   FB Unicode15.isInTheGap0123;
   FB Unicode15.isInTheGap0124;
   FB Unicode15.isInTheGap0125;
   FB Unicode15.isInTheGap012F;
   FB Unicode15.isInTheGap0134;
   FB Unicode15.isInTheGap0146;
   FB Unicode15.isInTheGap016A;
   FB Unicode15.isInTheGap016B;
   FB Unicode15.isInTheGap016E;
   FB Unicode15.isInTheGap016F;
   FB Unicode15.isInTheGap0187;
   FB Unicode15.isInTheGap018C;
   FB Unicode15.isInTheGap018D;
   FB Unicode15.isInTheGap01B1;
   FB Unicode15.isInTheGap01B2;
   FB Unicode15.isInTheGap01BC;
   FB Unicode15.isInTheGap01CF;
   FB Unicode15.isInTheGap01D0;
   FB Unicode15.isInTheGap01D1;
   FB Unicode15.isInTheGap01D2;
   FB Unicode15.isInTheGap01D3;
   FB Unicode15.isInTheGap01D4;
   FB Unicode15.isInTheGap01D5;
   FB Unicode15.isInTheGap01D6;
   FB Unicode15.isInTheGap01D7;
   FB Unicode15.isInTheGap01DA;
   FB Unicode15.isInTheGap01DF;
   FB Unicode15.isInTheGap01E0;
   FB Unicode15.isInTheGap01E1;
   FB Unicode15.isInTheGap01E2;
   FB Unicode15.isInTheGap01E4;
   FB Unicode15.isInTheGap01E7;
   FB Unicode15.isInTheGap01E8;
   FB Unicode15.isInTheGap01E9;
   FB Unicode15.isInTheGap01EC;
   FB Unicode15.isInTheGap01ED;
   FB Unicode15.isInTheGap01EE;
   FB Unicode15.isInTheGap01F0;
   FB Unicode15.isInTheGap01F1;
   FB Unicode15.isInTheGap01F2;
   FB Unicode15.isInTheGap01F6;
   FB Unicode15.isInTheGap01F7;
   FB Unicode15.isInTheGap01F8;
   FB Unicode15.isInTheGap01FA;
   FB Unicode15.isInTheGap01FB;
   FB Unicode15.isInTheGap01;
   FB Unicode15.isInTheGap02B7;
   FB Unicode15.isInTheGap02B8;
   FB Unicode15.isInTheGap02CE;
   FB Unicode15.isInTheGap02EB;
   FB Unicode15.isInTheGap02FA;
   FB Unicode15.isInTheGap02;
   FB Unicode15.isInTheGap03;
   FB Unicode15.isInTheGap0E;
   FB Unicode15.isUnicodeAssigned_16;
   FB Unicode15.isUnicodeAssigned_32;
   FB Unicode15.isUnicodePrivate_16;
   FB Unicode15.isUnicodePrivate_32;
   FB Unicode15.isControlChar_8;
   FB Unicode15.isControlChar_16;
   FB Unicode15.isControlChar_32;
   FB Unicode15.isWhitespaceChar_8;
   FB Unicode15.isWhitespaceChar_16;
   FB Unicode15.isWhitespaceChar_32;
   FZ Char Unicode15.toLowerC;
   FZ Char16 Unicode15.toLower0100;
   FZ Char16 Unicode15.toLower0200;
   FZ Char16 Unicode15.toLower0300;
   FZ Char16 Unicode15.toLower0400;
   FZ Char16 Unicode15.toLower0500;
   FZ Char16 Unicode15.toLower1000;
   FZ Char16 Unicode15.toLower2000;
   FZ Char16 Unicode15.toLowerA000;
   FZ Char16 Unicode15.toLowerF000;
   FZ Char16 Unicode15.toLower2;
   FZ Char32 Unicode15.toLower;
   FZ Char32 Unicode15.turkicToLower].

Ltac by_kernel := match goal with |- _ = ?y => exact_no_check (@eq_refl _ y) end.

Lemma translated : compiles [] Bits15.functions translations.
Proof. repeat (split; [by_kernel|]). exact I. Qed.

Lemma all_found : Forall (found nothing Bits15.functions) Bits15.functions.
Proof. repeat (constructor; [intros z; split; [reflexivity | by_kernel]|]). constructor. Qed.

Lemma provided : provides Bits15.functions tables15.
Proof.
  apply (provides_from _ translations _ [131; 132; 133; 134; 135; 136; 137; 138; 139; 140; 153; 152]%nat all_found translated).
  - repeat (constructor; [eexists; split; [reflexivity | split; [eexists; reflexivity | split; reflexivity]]|]). constructor.
  - repeat (constructor; [reflexivity|]). constructor.
  - intros []; repeat (constructor; [reflexivity|]); constructor.
Qed.
