(* The parsed source of string_decode_utf8.cxx does what Model/Decode.v says. *)
From Coq Require Import ZArith List Bool String Lia.
From Verif Require Import Machine.
From Verif.Model Require Import Tables Internal Predicate Decode.
From Verif.Cxx Require Import Syntax Semantics Program Values.
From Verif.Gen Require Import Source.
From Verif.Proof Require Import Bits CxxTools CxxRaw CxxInternal.
Import ListNotations.
Local Open Scope string_scope.
Local Open Scope list_scope.
Local Open Scope Z_scope.

Definition byte (x : Z) : Prop := 0 <= x < 256.

Lemma raw2_range a b : 0 <= rawDecodeUtf8_2 a b < 0x10000.
Proof. unfold rawDecodeUtf8_2, wrap16. lia. Qed.
Lemma raw3_range a b c : 0 <= rawDecodeUtf8_3 a b c < 0x10000.
Proof. unfold rawDecodeUtf8_3, wrap16. lia. Qed.
Lemma raw4_range a b c x : 0 <= rawDecodeUtf8_4 a b c x < 0x100000000.
Proof. unfold rawDecodeUtf8_4, wrap32. lia. Qed.
Lemma raw5_range a b c x y : 0 <= rawDecodeUtf8_5 a b c x y < 0x100000000.
Proof. unfold rawDecodeUtf8_5, wrap32. lia. Qed.
Lemma raw6_range a b c x y z : 0 <= rawDecodeUtf8_6 a b c x y z < 0x100000000.
Proof. unfold rawDecodeUtf8_6, wrap32. lia. Qed.

Ltac call_raw r :=
  lazymatch r with
  | call _ _ _ _ "rawDecodeUtf8" [VI UChar ?a; VI UChar ?b] => rewrite c_rawDecode2 by lia; pose proof (raw2_range a b)
  | call _ _ _ _ "rawDecodeUtf8" [VI UChar ?a; VI UChar ?b; VI UChar ?c] =>
    rewrite c_rawDecode3 by lia; pose proof (raw3_range a b c)
  | call _ _ _ _ "rawDecodeUtf8" [VI UChar ?a; VI UChar ?b; VI UChar ?c; VI UChar ?x] =>
    rewrite c_rawDecode4 by lia; pose proof (raw4_range a b c x)
  | call _ _ _ _ "rawDecodeUtf8" [VI UChar ?a; VI UChar ?b; VI UChar ?c; VI UChar ?x; VI UChar ?y] =>
    rewrite c_rawDecode5 by lia; pose proof (raw5_range a b c x y)
  | call _ _ _ _ "rawDecodeUtf8" [VI UChar ?a; VI UChar ?b; VI UChar ?c; VI UChar ?x; VI UChar ?y; VI UChar ?z] =>
    rewrite c_rawDecode6 by lia; pose proof (raw6_range a b c x y z)
  | load ?I ?t (into ?arr (?x :: ?l)) =>
    lazymatch goal with H : suffix (x :: l) arr |- _ => rewrite (load_into I t arr (x :: l) H) end;
    change (bind (deref (x :: l)) (fun x => Done (VI t (norm I t x)))) with (Done (VI t (norm I t x)))
  | advance ?I (into ?arr (?x :: ?l)) 1 =>
    lazymatch goal with H : suffix (x :: l) arr |- _ => rewrite (advance_into I arr x l H) end
  | _ => call_internal r
  end.
Ltac known r ::= call_raw r.

(* the pointer is read: at the end of the array that is undefined, else there is a byte *)
Ltac read_next :=
  lazymatch goal with
  | H : suffix ?l ?arr, B : Forall byte ?l |- context [load ?I ?t (into ?arr ?l)] =>
    destruct l as [|? ?];
    [ rewrite (load_into I t arr [] H); change (bind (deref []) (fun x => Done (VI t (norm I t x)))) with (@Undefined value)
    | let H' := fresh "Hs" in let B' := fresh "Hb" in let X := fresh "Hx" in
      pose proof (suffix_tail _ _ _ H) as H'; pose proof (Forall_inv_tail B) as B';
      pose proof (Forall_inv B) as X; red in X ]
  end.

Section Decode.
Context (I : implementation) (T : UnicodeTables) (fuel d : nat).

Lemma c_decode arr rest : suffix rest arr -> Forall byte rest ->
  call I T fuel (S (S d)) "decodeUtf8" [VP Char (into arr rest)]
  = match decodeUtf8 rest with
    | Done (c, p) => Done (VI Char32 c, [Some (vptr Char arr p)])
    | Undefined => Undefined
    | OutOfFuel => OutOfFuel
    end.
Proof.
  intros Hs Hb. enter c_decodeUtf8. repeat (first [split_if | read_next]; go).
  all: unfold decodeUtf8, next_byte; cbn [deref incr bind]; decide_eqs; cbn [negb andb orb]; try reflexivity.
  all: unfold wrap32; rewrite Z.mod_small by bl; reflexivity.
Qed.
End Decode.
