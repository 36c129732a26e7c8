(* Written by tools/bitsproof.py: the parsed functions of source/bits12 do what Gen/Unicode12.v says. *)
From Coq Require Import ZArith List String.
From Verif.Model Require Import Tables.
From Verif.Cxx Require Import Syntax Semantics Linked.
From Verif.Gen Require Bits12 Unicode12.
From Verif.Proof Require Import CxxPure CxxLinked.
Import ListNotations.

Definition translations : list fn :=
  [FB Unicode12.isInTheGap0003;
   FB Unicode12.isInTheGap0005;
   FB Unicode12.isInTheGap0006;
   FB Unicode12.isInTheGap0007;
   FB Unicode12.isInTheGap0008;
   FB Unicode12.isInTheGap0009;
   FB Unicode12.isInTheGap000A;
   FB Unicode12.isInTheGap000B;
   FB Unicode12.isInTheGap000C;
   FB Unicode12.isInTheGap000D;
   FB Unicode12.isInTheGap000E;
   FB Unicode12.isInTheGap000F;
   FB Unicode12.isInTheGap0010;
   FB Unicode12.isInTheGap0012;
   FB Unicode12.isInTheGap0013;
   FB Unicode12.isInTheGap0016;
   FB Unicode12.isInTheGap0017;
   FB Unicode12.isInTheGap0018;
   FB Unicode12.isInTheGap0019;
   FB Unicode12.isInTheGap001A;
   FB Unicode12.isInTheGap001B;
   FB Unicode12.isInTheGap001C;
   FB Unicode12.isInTheGap001F;
   FB Unicode12.isInTheGap0020;
   FB Unicode12.isInTheGap0021;
   FB Unicode12.isInTheGap0024;
   FB Unicode12.isInTheGap002B;
   FB Unicode12.isInTheGap002C;
   FB Unicode12.isInTheGap002D;
   FB Unicode12.isInTheGap002E;
   FB Unicode12.isInTheGap002F;
   FB Unicode12.isInTheGap0030;
   FB Unicode12.isInTheGap0031;
   FB Unicode12.isInTheGap0032;
   FB Unicode12.isInTheGap004D;
   FB Unicode12.isInTheGap009F;
   FB Unicode12.isInTheGap00A4;
   FB Unicode12.isInTheGap00A6;
   FB Unicode12.isInTheGap00A7;
   FB Unicode12.isInTheGap00A8;
   FB Unicode12.isInTheGap00A9;
   FB Unicode12.isInTheGap00AA;
   FB Unicode12.isInTheGap00AB;
   FB Unicode12.isInTheGap00D7_DF;
   FB Unicode12.isInTheGap00FA;
   FB Unicode12.isInTheGap00FB;
   FB Unicode12.isInTheGap00FD;
   FB Unicode12.isInTheGap00FE;
   FB Unicode12.isInTheGap00FF;
   FB Unicode12.isInTheGap0100;
   FB Unicode12.isInTheGap0101;
   FB Unicode12.isInTheGap0102;
   FB Unicode12.isInTheGap0103;
   FB Unicode12.isInTheGap0104;
   FB Unicode12.isInTheGap0105;
   FB Unicode12.isInTheGap0107;
   FB Unicode12.isInTheGap0108;
   FB Unicode12.isInTheGap0109;
   FB Unicode12.isInTheGap010A;
   FB Unicode12.isInTheGap010B;
   FB Unicode12.isInTheGap010C;
   FB Unicode12.isInTheGap010D;
   FB Unicode12.isInTheGap010E;
   FB Unicode12.isInTheGap010F;
   FB Unicode12.isInTheGap0110;
   FB Unicode12.isInTheGap0111;
   FB Unicode12.isInTheGap0112;
   FB Unicode12.isInTheGap0113;
   FB Unicode12.isInTheGap0114;
   FB Unicode12.isInTheGap0115;
   FB Unicode12.isInTheGap0116;
   FB Unicode12.isInTheGap0117;
   FB Unicode12.isInTheGap0118;
   FB Unicode12.isInTheGap0119;
   FB Unicode12.isInTheGap011A;
   FB Unicode12.isInTheGap011C;
   FB Unicode12.isInTheGap011D;
   FB Unicode12.isInTheGap011E;
   FB Unicode12.isInTheGap011F;
   FB Unicode12.isInTheGap0123;
   FB Unicode12.isInTheGap0124;
   FB Unicode12.isInTheGap0125;
   FB Unicode12.isInTheGap0134;
   FB Unicode12.isInTheGap0146;
   FB Unicode12.isInTheGap016A;
   FB Unicode12.isInTheGap016B;
   FB Unicode12.isInTheGap016E;
   FB Unicode12.isInTheGap016F;
   FB Unicode12.isInTheGap0187;
   FB Unicode12.isInTheGap018A;
   FB Unicode12.isInTheGap01B1;
   FB Unicode12.isInTheGap01B2;
   FB Unicode12.isInTheGap01BC;
   FB Unicode12.isInTheGap01D0;
   FB Unicode12.isInTheGap01D1;
   FB Unicode12.isInTheGap01D2;
   FB Unicode12.isInTheGap01D3;
   FB Unicode12.isInTheGap01D4;
   FB Unicode12.isInTheGap01D5;
   FB Unicode12.isInTheGap01D6;
   FB Unicode12.isInTheGap01D7;
   FB Unicode12.isInTheGap01DA;
   FB Unicode12.isInTheGap01E0;
   FB Unicode12.isInTheGap01E1;
   FB Unicode12.isInTheGap01E2;
   FB Unicode12.isInTheGap01E8;
   FB Unicode12.isInTheGap01E9;
   FB Unicode12.isInTheGap01EC;
   FB Unicode12.isInTheGap01ED;
   FB Unicode12.isInTheGap01EE;
   FB Unicode12.isInTheGap01F0;
   FB Unicode12.isInTheGap01F1;
   FB Unicode12.isInTheGap01F2;
   FB Unicode12.isInTheGap01F6;
   FB Unicode12.isInTheGap01F7;
   FB Unicode12.isInTheGap01F8;
   FB Unicode12.isInTheGap01F9;
   FB Unicode12.isInTheGap01FA;
   FB Unicode12.isInTheGap01;
   FB Unicode12.isInTheGap02A6;
   FB Unicode12.isInTheGap02B7;
   FB Unicode12.isInTheGap02B8;
   FB Unicode12.isInTheGap02CE;
   FB Unicode12.isInTheGap02EB;
   FB Unicode12.isInTheGap02FA;
   FB Unicode12.isInTheGap02;
   FB Unicode12.isInTheGap0E;
   FB Unicode12.isUnicodeAssigned_16;
   FB Unicode12.isUnicodeAssigned_32;
   FB Unicode12.isUnicodePrivate_16;
   FB Unicode12.isUnicodePrivate_32;
   FB Unicode12.isControlChar_8;
   FB Unicode12.isControlChar_16;
   FB Unicode12.isControlChar_32;
   FB Unicode12.isWhitespaceChar_8;
   FB Unicode12.isWhitespaceChar_16;
   FB Unicode12.isWhitespaceChar_32;
   FZ Char Unicode12.toLowerC;
   FZ Char16 Unicode12.toLower0100;
   FZ Char16 Unicode12.toLower0200;
   FZ Char16 Unicode12.toLower0300;
   FZ Char16 Unicode12.toLower0400;
   FZ Char16 Unicode12.toLower0500;
   FZ Char16 Unicode12.toLower1000;
   FZ Char16 Unicode12.toLower2000;
   FZ Char16 Unicode12.toLowerA000;
   FZ Char16 Unicode12.toLowerF000;
   FZ Char16 Unicode12.toLower2;
   FZ Char32 Unicode12.toLower;
   FZ Char32 Unicode12.turkicToLower].

Ltac by_kernel := match goal with |- _ = ?y => exact_no_check (@eq_refl _ y) end.

Lemma translated : compiles [] Bits12.functions translations.
Proof. repeat (split; [by_kernel|]). exact I. Qed.

Lemma all_found : Forall (found nothing Bits12.functions) Bits12.functions.
Proof. repeat (constructor; [intros z; split; [reflexivity | by_kernel]|]). constructor. Qed.

Lemma provided : provides Bits12.functions tables12.
Proof.
  apply (provides_from _ translations _ [127; 128; 129; 130; 131; 132; 133; 134; 135; 136; 149; 148]%nat all_found translated).
  - repeat (constructor; [eexists; split; [reflexivity | split; [eexists; reflexivity | split; reflexivity]]|]). constructor.
  - repeat (constructor; [reflexivity|]). constructor.
  - intros []; repeat (constructor; [reflexivity|]); constructor.
Qed.
