(* Written by tools/bitsproof.py: the parsed functions of source/bits7 do what Gen/Unicode7.v says. *)
From Coq Require Import ZArith List String.
From Verif.Model Require Import Tables.
From Verif.Cxx Require Import Syntax Semantics Linked.
From Verif.Gen Require Bits7 Unicode7.
From Verif.Proof Require Import CxxPure CxxLinked.
Import ListNotations.

Definition translations : list fn :=
  [FB Unicode7.isInTheGap0003;
   FB Unicode7.isInTheGap0005;
   FB Unicode7.isInTheGap0006;
   FB Unicode7.isInTheGap0007;
   FB Unicode7.isInTheGap0008;
   FB Unicode7.isInTheGap0009;
   FB Unicode7.isInTheGap000A;
   FB Unicode7.isInTheGap000B;
   FB Unicode7.isInTheGap000C;
   FB Unicode7.isInTheGap000D;
   FB Unicode7.isInTheGap000E;
   FB Unicode7.isInTheGap000F;
   FB Unicode7.isInTheGap0010;
   FB Unicode7.isInTheGap0012;
   FB Unicode7.isInTheGap0013;
   FB Unicode7.isInTheGap0016;
   FB Unicode7.isInTheGap0017;
   FB Unicode7.isInTheGap0018;
   FB Unicode7.isInTheGap0019;
   FB Unicode7.isInTheGap001A;
   FB Unicode7.isInTheGap001B;
   FB Unicode7.isInTheGap001C;
   FB Unicode7.isInTheGap001D;
   FB Unicode7.isInTheGap001F;
   FB Unicode7.isInTheGap0020;
   FB Unicode7.isInTheGap0021;
   FB Unicode7.isInTheGap0023;
   FB Unicode7.isInTheGap0024;
   FB Unicode7.isInTheGap002B;
   FB Unicode7.isInTheGap002C;
   FB Unicode7.isInTheGap002D;
   FB Unicode7.isInTheGap002E;
   FB Unicode7.isInTheGap002F;
   FB Unicode7.isInTheGap0030;
   FB Unicode7.isInTheGap0031;
   FB Unicode7.isInTheGap0032;
   FB Unicode7.isInTheGap004D;
   FB Unicode7.isInTheGap009F;
   FB Unicode7.isInTheGap00A4;
   FB Unicode7.isInTheGap00A6;
   FB Unicode7.isInTheGap00A7;
   FB Unicode7.isInTheGap00A8;
   FB Unicode7.isInTheGap00A9;
   FB Unicode7.isInTheGap00AA;
   FB Unicode7.isInTheGap00AB;
   FB Unicode7.isInTheGap00D7_DF;
   FB Unicode7.isInTheGap00FA;
   FB Unicode7.isInTheGap00FB;
   FB Unicode7.isInTheGap00FD;
   FB Unicode7.isInTheGap00FE;
   FB Unicode7.isInTheGap00FF;
   FB Unicode7.isInTheGap0100;
   FB Unicode7.isInTheGap0101;
   FB Unicode7.isInTheGap0102;
   FB Unicode7.isInTheGap0103;
   FB Unicode7.isInTheGap0104;
   FB Unicode7.isInTheGap0105;
   FB Unicode7.isInTheGap0107;
   FB Unicode7.isInTheGap0108;
   FB Unicode7.isInTheGap0109;
   FB Unicode7.isInTheGap010A;
   FB Unicode7.isInTheGap010B;
   FB Unicode7.isInTheGap010C;
   FB Unicode7.isInTheGap010E;
   FB Unicode7.isInTheGap0110;
   FB Unicode7.isInTheGap0111;
   FB Unicode7.isInTheGap0112;
   FB Unicode7.isInTheGap0113;
   FB Unicode7.isInTheGap0114;
   FB Unicode7.isInTheGap0115;
   FB Unicode7.isInTheGap0116;
   FB Unicode7.isInTheGap0118;
   FB Unicode7.isInTheGap011A;
   FB Unicode7.isInTheGap0123;
   FB Unicode7.isInTheGap0124;
   FB Unicode7.isInTheGap0134;
   FB Unicode7.isInTheGap016A;
   FB Unicode7.isInTheGap016B;
   FB Unicode7.isInTheGap016F;
   FB Unicode7.isInTheGap01B0;
   FB Unicode7.isInTheGap01BC;
   FB Unicode7.isInTheGap01D0;
   FB Unicode7.isInTheGap01D1;
   FB Unicode7.isInTheGap01D2;
   FB Unicode7.isInTheGap01D3;
   FB Unicode7.isInTheGap01D4;
   FB Unicode7.isInTheGap01D5;
   FB Unicode7.isInTheGap01D6;
   FB Unicode7.isInTheGap01D7;
   FB Unicode7.isInTheGap01E8;
   FB Unicode7.isInTheGap01EE;
   FB Unicode7.isInTheGap01F0;
   FB Unicode7.isInTheGap01F1;
   FB Unicode7.isInTheGap01F2;
   FB Unicode7.isInTheGap01F3;
   FB Unicode7.isInTheGap01F5;
   FB Unicode7.isInTheGap01F6;
   FB Unicode7.isInTheGap01F7;
   FB Unicode7.isInTheGap01F8;
   FB Unicode7.isInTheGap01;
   FB Unicode7.isInTheGap02A6;
   FB Unicode7.isInTheGap02B7;
   FB Unicode7.isInTheGap02B8;
   FB Unicode7.isInTheGap02FA;
   FB Unicode7.isInTheGap02;
   FB Unicode7.isInTheGap0E;
   FB Unicode7.isUnicodeAssigned_16;
   FB Unicode7.isUnicodeAssigned_32;
   FB Unicode7.isUnicodePrivate_16;
   FB Unicode7.isUnicodePrivate_32;
   FB Unicode7.isControlChar_8;
   FB Unicode7.isControlChar_16;
   FB Unicode7.isControlChar_32;
   FB Unicode7.isWhitespaceChar_8;
   FB Unicode7.isWhitespaceChar_16;
   FB Unicode7.isWhitespaceChar_32;
   FZ Char Unicode7.toLowerC;
   FZ Char16 Unicode7.toLower0100;
   FZ Char16 Unicode7.toLower0200;
   FZ Char16 Unicode7.toLower0300;
   FZ Char16 Unicode7.toLower0400;
   FZ Char16 Unicode7.toLower0500;
   FZ Char16 Unicode7.toLower1000;
   FZ Char16 Unicode7.toLower2000;
   FZ Char16 Unicode7.toLowerA000;
   FZ Char16 Unicode7.toLowerF000;
   FZ Char16 Unicode7.toLower2;
   FZ Char32 Unicode7.toLower;
   FZ Char32 Unicode7.turkicToLower].

Ltac by_kernel := match goal with |- _ = ?y => exact_no_check (@eq_refl _ y) end.

Lemma translated : compiles [] Bits7.functions translations.
Proof. repeat (split; [by_kernel|]). exact I. Qed.

Lemma all_found : Forall (found nothing Bits7.functions) Bits7.functions.
Proof. repeat (constructor; [intros z; split; [reflexivity | by_kernel]|]). constructor. Qed.

Lemma provided : provides Bits7.functions tables7.
Proof.
  apply (provides_from _ translations _ [106; 107; 108; 109; 110; 111; 112; 113; 114; 115; 128; 127]%nat all_found translated).
  - repeat (constructor; [eexists; split; [reflexivity | split; [eexists; reflexivity | split; reflexivity]]|]). constructor.
  - repeat (constructor; [reflexivity|]). constructor.
  - intros []; repeat (constructor; [reflexivity|]); constructor.
Qed.
