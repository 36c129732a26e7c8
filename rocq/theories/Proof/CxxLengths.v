(* The parsed source of unicodeLength of string.cxx, all overloads, does what Model/Str.v says. *)
From Coq Require Import ZArith List Bool String Lia.
From Verif Require Import Machine.
From Verif.Model Require Import Tables Internal Predicate Decode Str.
From Verif.Cxx Require Import Syntax Semantics Program Values.
From Verif.Gen Require Import Source.
From Verif.Proof Require Import Bits CxxTools CxxRaw CxxInternal CxxDecode CxxPred CxxHelpers CxxChecks CxxUtf8 CxxSugar CxxLength CxxLength8.
Import ListNotations.
Local Open Scope string_scope.
Local Open Scope list_scope.
Local Open Scope Z_scope.

(* the length left out *)
Section Defaults.
Context (I : implementation) (T : UnicodeTables) (fuel d : nat).

Ltac fill c :=
  rewrite !call_S;
  repeat match goal with
         | |- context [external T ?f ?vs] => change (external T f vs) with (@None value)
         | |- context [select (funs _) ?f ?vs] => resolved c
         end;
  cbv iota beta; rewrite !invoke_eq; unfold c; cbn [f_params];
  rewrite !params_cons; destruct I as [[|] [|] ?]; reflexivity.

Lemma length8_bare q : call I T fuel (S d) "unicodeLength" [VP Char q] = call I T fuel (S d) "unicodeLength" [VP Char q; VI UInt 0].
Proof. fill c_unicodeLength_pChar_UInt. Qed.
Lemma length16_bare q : call I T fuel (S d) "unicodeLength" [VP Char16 q] = call I T fuel (S d) "unicodeLength" [VP Char16 q; VI UInt 0].
Proof. fill c_unicodeLength_pChar16_UInt. Qed.
Lemma length32_bare q : call I T fuel (S d) "unicodeLength" [VP Char32 q] = call I T fuel (S d) "unicodeLength" [VP Char32 q; VI UInt 0].
Proof. fill c_unicodeLength_pChar32_UInt. Qed.
End Defaults.

Ltac call_any_length r :=
  lazymatch r with
  | call _ _ _ _ _ [VP _ (PAt (?s ++ [0]) 0)] => rewrite (into_all (s ++ [0]))
  | call ?I ?T ?fuel _ "unicodeLength" [VP Char (into ?arr ?rest)] =>
    rewrite length8_bare; rewrite (c_length8_any I T fuel _ arr (At rest)) by points_side
  | call ?I ?T ?fuel _ "unicodeLength" [VP Char16 (into ?arr ?rest)] =>
    rewrite length16_bare; rewrite (c_length16_any I T fuel _ arr (At rest)) by points_side
  | call ?I ?T ?fuel _ "unicodeLength" [VP Char32 (into ?arr ?rest)] =>
    rewrite length32_bare; rewrite (c_length32_any I T fuel _ arr (At rest)) by first [points_side | right; apply size_nonneg]
  | unicodeLength8 _ _ => fail
  | unicodeLength16 _ _ => fail
  | unicodeLength32 _ _ => fail
  | method _ (VS ?t ?l) "c_str" [] _ => fail
  | _ => first [call_helper r | open_body r]
  end.
Ltac known r ::= call_any_length r.

Lemma check_range p u ll r k a : (forall s b, k s = Done b -> 0 <= b < 0x100000000) -> 0 <= r < 0x100000000 ->
  lengthCheck p u ll 0 r k = Done a -> 0 <= a < 0x100000000.
Proof.
  intros Hk Hr. rewrite fits_check. destruct (fits p u ll) as [[[|]|s]| |]; cbn [bind]; try discriminate.
  - intros [=]. lia.
  - intros [=]. lia.
  - apply Hk.
Qed.
Lemma length8_loop_range b m : forall p pl n r a, 0 <= r < 0x100000000 ->
  unicodeLength8_loop b m p pl n r = Done a -> 0 <= a < 0x100000000.
Proof.
  induction m as [|m IH]; intros p pl n r a R; cbn [unicodeLength8_loop]; [discriminate|].
  destruct (deref p) as [v| |]; cbn [bind]; try discriminate.
  destruct (v =? 0); [intros [=]; destruct b; lia|].
  lazymatch goal with |- (if _ then lengthCheck _ _ _ _ _ ?f else _) = _ -> _ =>
    assert (G : forall x c, f x = Done c -> 0 <= c < 0x100000000) end.
  { intros _ c. destruct (decodeUtf8 p) as [[x [|q]]| |]; cbn [bind]; try discriminate; [intros [=]; lia|].
    destruct (_ =? 0); [intros [=]; lia|]. destruct (x =? 0).
    - destruct (deref q) as [z| |]; cbn [bind]; try discriminate. intros [=].
      destruct (z =? 0); [subst; apply wrap_in | lia].
    - destruct (_ && _); [intros [=]; subst; apply wrap_in|].
      destruct (incr q) as [q'| |]; cbn [bind]; try discriminate. apply IH, wrap_in. }
  destruct b; [apply check_range; assumption | apply (G 0)].
Qed.
Lemma length8_range p n a : unicodeLength8 p n = Done a -> 0 <= a < 0x100000000.
Proof.
  unfold unicodeLength8. destruct p as [|p]; [intros [=]; lia|].
  destruct (deref p) as [u| |]; cbn [bind]; try discriminate. destruct (u =? 0); [intros [=]; lia|].
  apply length8_loop_range. lia.
Qed.
Lemma length16_loop_range b k : forall p pl n r a, (List.length p < k)%nat -> 0 <= r < 0x100000000 ->
  unicodeLength16_loop b p pl n r = Done a -> 0 <= a < 0x100000000.
Proof.
  induction k as [|k IH]; intros l pl n r a Hl R; [lia|].
  destruct l as [|c l]; cbn [unicodeLength16_loop List.length] in *; [discriminate|].
  destruct (c =? 0); [intros [=]; destruct b; lia|].
  destruct (isSecondHalfUtf16 c); [intros [=]; lia|].
  destruct (b && _); [intros [=]; lia|].
  destruct l as [|c1 l]; [discriminate|]. cbn [List.length] in Hl.
  destruct (_ && _); [intros [=]; subst; apply wrap_in|].
  destruct (_ && _).
  - destruct (_ && _); [intros [=]; subst; apply wrap_in|]. apply IH; [lia | apply wrap_in].
  - destruct (isFirstHalfUtf16 c); [intros [=]; lia|].
    destruct (_ && _); [intros [=]; subst; apply wrap_in|]. apply IH; [cbn [List.length]; lia | apply wrap_in].
Qed.
Lemma length16_range p n a : unicodeLength16 p n = Done a -> 0 <= a < 0x100000000.
Proof.
  unfold unicodeLength16. destruct p as [|p]; [discriminate|].
  apply (length16_loop_range _ (S (List.length p))); lia.
Qed.
Lemma length32_loop_range n : forall p used r a, 0 <= r < 0x100000000 ->
  unicodeLength32_loop n p used r = Done a -> 0 <= a < 0x100000000.
Proof.
  induction p as [|c p IH]; intros used r a R; cbn [unicodeLength32_loop]; [discriminate|].
  destruct (c =? 0); [intros [=]; destruct (negb (n =? 0)); lia|].
  destruct (_ || _); [intros [=]; lia|].
  destruct (_ && _); [intros [=]; subst; apply wrap_in|]. apply IH, wrap_in.
Qed.
Lemma length32_range p n a : unicodeLength32 p n = Done a -> 0 <= a < 0x100000000.
Proof.
  unfold unicodeLength32. destruct p as [|p]; [discriminate|]. apply length32_loop_range. lia.
Qed.

Section Strings.
Context (I : implementation) (T : UnicodeTables) (fuel d : nat).

Lemma c_length8_string s : Forall byte s -> (S (List.length s) < fuel)%nat -> pointer_checks I = false ->
  call I T fuel (S (S (S (S (S d))))) "unicodeLength" [VS Char s]
  = do r <- unicodeLength8_string s; Done (VI UInt r, [None]).
Proof.
  intros Hs Hf Hc. unfold unicodeLength8_string. enter c_unicodeLength_sChar. unfold c_str.
  destruct (unicodeLength8 _ _) eqn:E; try reflexivity. go. rewrite norm_uint by (apply (length8_range _ _ _ E)). reflexivity.
Qed.
Lemma c_length16_string s : Forall unit16 s -> (S (List.length s) < fuel)%nat -> pointer_checks I = false ->
  call I T fuel (S (S (S (S (S d))))) "unicodeLength" [VS Char16 s]
  = do r <- unicodeLength16_string s; Done (VI UInt r, [None]).
Proof.
  intros Hs Hf Hc. unfold unicodeLength16_string. enter c_unicodeLength_sChar16. unfold c_str.
  destruct (unicodeLength16 _ _) eqn:E; try reflexivity. go. rewrite norm_uint by (apply (length16_range _ _ _ E)). reflexivity.
Qed.
Lemma c_length32_string s : Forall unit32 s -> (S (List.length s) < fuel)%nat ->
  call I T fuel (S (S (S (S (S d))))) "unicodeLength" [VS Char32 s]
  = do r <- unicodeLength32_string s; Done (VI UInt r, [None]).
Proof.
  intros Hs Hf. unfold unicodeLength32_string. enter c_unicodeLength_sChar32. unfold c_str.
  destruct (unicodeLength32 _ _) eqn:E; try reflexivity. go. rewrite norm_uint by (apply (length32_range _ _ _ E)). reflexivity.
Qed.
End Strings.
