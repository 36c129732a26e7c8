(* Written by tools/bitsproof.py: the parsed functions of source/bits11 do what Gen/Unicode11.v says. *)
From Coq Require Import ZArith List String.
From Verif.Model Require Import Tables.
From Verif.Cxx Require Import Syntax Semantics Linked.
From Verif.Gen Require Bits11 Unicode11.
From Verif.Proof Require Import CxxPure CxxLinked.
Import ListNotations.

Definition translations : list fn :=
  [FB Unicode11.isInTheGap0003;
   FB Unicode11.isInTheGap0005;
   FB Unicode11.isInTheGap0006;
   FB Unicode11.isInTheGap0007;
   FB Unicode11.isInTheGap0008;
   FB Unicode11.isInTheGap0009;
   FB Unicode11.isInTheGap000A;
   FB Unicode11.isInTheGap000B;
   FB Unicode11.isInTheGap000C;
   FB Unicode11.isInTheGap000D;
   FB Unicode11.isInTheGap000E;
   FB Unicode11.isInTheGap000F;
   FB Unicode11.isInTheGap0010;
   FB Unicode11.isInTheGap0012;
   FB Unicode11.isInTheGap0013;
   FB Unicode11.isInTheGap0016;
   FB Unicode11.isInTheGap0017;
   FB Unicode11.isInTheGap0018;
   FB Unicode11.isInTheGap0019;
   FB Unicode11.isInTheGap001A;
   FB Unicode11.isInTheGap001B;
   FB Unicode11.isInTheGap001C;
   FB Unicode11.isInTheGap001F;
   FB Unicode11.isInTheGap0020;
   FB Unicode11.isInTheGap0021;
   FB Unicode11.isInTheGap0024;
   FB Unicode11.isInTheGap002B;
   FB Unicode11.isInTheGap002C;
   FB Unicode11.isInTheGap002D;
   FB Unicode11.isInTheGap002E;
   FB Unicode11.isInTheGap002F;
   FB Unicode11.isInTheGap0030;
   FB Unicode11.isInTheGap0031;
   FB Unicode11.isInTheGap0032;
   FB Unicode11.isInTheGap004D;
   FB Unicode11.isInTheGap009F;
   FB Unicode11.isInTheGap00A4;
   FB Unicode11.isInTheGap00A6;
   FB Unicode11.isInTheGap00A7;
   FB Unicode11.isInTheGap00A8;
   FB Unicode11.isInTheGap00A9;
   FB Unicode11.isInTheGap00AA;
   FB Unicode11.isInTheGap00AB;
   FB Unicode11.isInTheGap00D7_DF;
   FB Unicode11.isInTheGap00FA;
   FB Unicode11.isInTheGap00FB;
   FB Unicode11.isInTheGap00FD;
   FB Unicode11.isInTheGap00FE;
   FB Unicode11.isInTheGap00FF;
   FB Unicode11.isInTheGap0100;
   FB Unicode11.isInTheGap0101;
   FB Unicode11.isInTheGap0102;
   FB Unicode11.isInTheGap0103;
   FB Unicode11.isInTheGap0104;
   FB Unicode11.isInTheGap0105;
   FB Unicode11.isInTheGap0107;
   FB Unicode11.isInTheGap0108;
   FB Unicode11.isInTheGap0109;
   FB Unicode11.isInTheGap010A;
   FB Unicode11.isInTheGap010B;
   FB Unicode11.isInTheGap010C;
   FB Unicode11.isInTheGap010D;
   FB Unicode11.isInTheGap010E;
   FB Unicode11.isInTheGap010F;
   FB Unicode11.isInTheGap0110;
   FB Unicode11.isInTheGap0111;
   FB Unicode11.isInTheGap0112;
   FB Unicode11.isInTheGap0113;
   FB Unicode11.isInTheGap0114;
   FB Unicode11.isInTheGap0115;
   FB Unicode11.isInTheGap0116;
   FB Unicode11.isInTheGap0117;
   FB Unicode11.isInTheGap0118;
   FB Unicode11.isInTheGap011A;
   FB Unicode11.isInTheGap011C;
   FB Unicode11.isInTheGap011D;
   FB Unicode11.isInTheGap011E;
   FB Unicode11.isInTheGap0123;
   FB Unicode11.isInTheGap0124;
   FB Unicode11.isInTheGap0125;
   FB Unicode11.isInTheGap0134;
   FB Unicode11.isInTheGap0146;
   FB Unicode11.isInTheGap016A;
   FB Unicode11.isInTheGap016B;
   FB Unicode11.isInTheGap016E;
   FB Unicode11.isInTheGap016F;
   FB Unicode11.isInTheGap0187;
   FB Unicode11.isInTheGap018A;
   FB Unicode11.isInTheGap01B1;
   FB Unicode11.isInTheGap01B2;
   FB Unicode11.isInTheGap01BC;
   FB Unicode11.isInTheGap01D0;
   FB Unicode11.isInTheGap01D1;
   FB Unicode11.isInTheGap01D2;
   FB Unicode11.isInTheGap01D3;
   FB Unicode11.isInTheGap01D4;
   FB Unicode11.isInTheGap01D5;
   FB Unicode11.isInTheGap01D6;
   FB Unicode11.isInTheGap01D7;
   FB Unicode11.isInTheGap01DA;
   FB Unicode11.isInTheGap01E0;
   FB Unicode11.isInTheGap01E8;
   FB Unicode11.isInTheGap01E9;
   FB Unicode11.isInTheGap01EC;
   FB Unicode11.isInTheGap01EE;
   FB Unicode11.isInTheGap01F0;
   FB Unicode11.isInTheGap01F1;
   FB Unicode11.isInTheGap01F2;
   FB Unicode11.isInTheGap01F6;
   FB Unicode11.isInTheGap01F7;
   FB Unicode11.isInTheGap01F8;
   FB Unicode11.isInTheGap01F9;
   FB Unicode11.isInTheGap01FA;
   FB Unicode11.isInTheGap01;
   FB Unicode11.isInTheGap02A6;
   FB Unicode11.isInTheGap02B7;
   FB Unicode11.isInTheGap02B8;
   FB Unicode11.isInTheGap02CE;
   FB Unicode11.isInTheGap02EB;
   FB Unicode11.isInTheGap02FA;
   FB Unicode11.isInTheGap02;
   FB Unicode11.isInTheGap0E;
   FB Unicode11.isUnicodeAssigned_16;
   FB Unicode11.isUnicodeAssigned_32;
   FB Unicode11.isUnicodePrivate_16;
   FB Unicode11.isUnicodePrivate_32;
   FB Unicode11.isControlChar_8;
   FB Unicode11.isControlChar_16;
   FB Unicode11.isControlChar_32;
   FB Unicode11.isWhitespaceChar_8;
   FB Unicode11.isWhitespaceChar_16;
   FB Unicode11.isWhitespaceChar_32;
   FZ Char Unicode11.toLowerC;
   FZ Char16 Unicode11.toLower0100;
   FZ Char16 Unicode11.toLower0200;
   FZ Char16 Unicode11.toLower0300;
   FZ Char16 Unicode11.toLower0400;
   FZ Char16 Unicode11.toLower0500;
   FZ Char16 Unicode11.toLower1000;
   FZ Char16 Unicode11.toLower2000;
   FZ Char16 Unicode11.toLowerA000;
   FZ Char16 Unicode11.toLowerF000;
   FZ Char16 Unicode11.toLower2;
   FZ Char32 Unicode11.toLower;
   FZ Char32 Unicode11.turkicToLower].

Ltac by_kernel := match goal with |- _ = ?y => exact_no_check (@eq_refl _ y) end.

Lemma translated : compiles [] Bits11.functions translations.
Proof. repeat (split; [by_kernel|]). exact I. Qed.

Lemma all_found : Forall (found nothing Bits11.functions) Bits11.functions.
Proof. repeat (constructor; [intros z; split; [reflexivity | by_kernel]|]). constructor. Qed.

Lemma provided : provides Bits11.functions tables11.
Proof.
  apply (provides_from _ translations _ [122; 123; 124; 125; 126; 127; 128; 129; 130; 131; 144; 143]%nat all_found translated).
  - repeat (constructor; [eexists; split; [reflexivity | split; [eexists; reflexivity | split; reflexivity]]|]). constructor.
  - repeat (constructor; [reflexivity|]). constructor.
  - intros []; repeat (constructor; [reflexivity|]); constructor.
Qed.
