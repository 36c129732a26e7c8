(* The parsed source of unicodeLength of string.cxx does what Model/Str.v says. *)
From Coq Require Import ZArith List Bool String Lia.
From Verif Require Import Machine.
From Verif.Model Require Import Tables Internal Predicate Decode Str.
From Verif.Cxx Require Import Syntax Semantics Program Values.
From Verif.Gen Require Import Source.
From Verif.Proof Require Import Bits CxxTools CxxRaw CxxInternal CxxDecode CxxPred CxxHelpers CxxChecks CxxUtf8 CxxSugar CxxLength.
Import ListNotations.
Local Open Scope string_scope.
Local Open Scope list_scope.
Local Open Scope Z_scope.

(* source/string.cxx:767-790, the statement that looks whether the sequence fits *)
Definition fits8_stmt : stmt :=
  (SIf (EVar "lengthTerminated")
  (SSeq (SDecl (TI UInt) "seqStarts" (Some (ECall "sequenceSizeCharStarts" [(EVar "p")])))
  (SSeq (SIf (EBin Eq (EVar "seqStarts") (ELit false 3))
  (SSeq (SIf (EAnd (EBin Gt (EVar "lengthLeft") (ELit false 1)) (ECall "isSecondHalfUtf16AsUtf8" [(EVar "p")]))
  (SReturn (Some (ELit false 0)))
  (SSkip))
  (SIf (EAnd (EBin Ge (EVar "lengthLeft") (ELit false 3)) (ECall "isFirstHalfUtf16AsUtf8" [(EVar "p")]))
  (SExpr (EAssign "seqStarts" (ELit false 6)))
  (SSkip)))
  (SSkip))
  (SIf (EBin Gt (EVar "seqStarts") (EVar "lengthLeft"))
  (SReturn (Some (EVar "r")))
  (SSkip))))
  (SSkip)).

Section Fits.
Context (I : implementation) (T : UnicodeTables) (fuel d : nat).

Lemma c_fits8 arr u l ll r v1 v2 v3 v4 v5 : suffix (u :: l) arr -> Forall byte (u :: l) -> 0 <= ll < 0x100000000 -> 0 <= r < 0x100000000 ->
  let e := [("p", Var (VP Char (into arr (u :: l)))); ("restrictToUnicode", Var v1); ("r", Var (VI UInt r));
            ("usedThisTime", Var v2); ("pLast", Var v3); ("lengthLeft", Var (VI UInt ll));
            ("lengthTerminated", Var (VB true)); ("src", Var v4); ("testLength", Var v5)] in
  exec I (call I T fuel (S (S (S d)))) (G0 T) fuel fits8_stmt e
  = do x <- fits (u :: l) u ll;
    match x with
    | inl false => Done (Returned (VI Int 0), e)
    | inl true => Done (Returned (VI UInt r), e)
    | inr _ => Done (Next, e)
    end.
Proof.
  intros Hs Hb Hl Hr. cbv zeta. unfold fits, lengthCheck.
  unfold fits8_stmt. lazymatch goal with |- _ = ?r => set (R := r) end.
  pose proof (Forall_inv Hb) as Hu. go. rewrite norm_wrap. subst R.
  assert (W : 0 <= wrap32 (sequenceSizeCharStarts u) < 0x100000000) by (unfold wrap32; lia).
  revert W. generalize (wrap32 (sequenceSizeCharStarts u)). intros s W.
  lazymatch goal with |- _ = ?r => set (R := r) end.
  repeat (first [split_if | split_half]; go).
  all: subst R; decide_eqs;
    repeat match goal with H : ?o = ?x |- context [?o] => lazymatch type of o with outcome _ => rewrite H end end;
    cbn [bind andb negb]; decide_eqs; cbn [bind andb negb]; decide_eqs; try reflexivity.
Qed.
End Fits.

Ltac call_fits8 r :=
  lazymatch r with
  | exec ?I (call ?I ?T ?fuel (S (S (S ?d)))) _ _ (SIf (EVar "lengthTerminated") (SSeq (SDecl _ "seqStarts" _) _) SSkip)
      [(_, Var (VP Char (into ?arr (?u :: ?l)))); (_, Var ?v1); (_, Var (VI UInt ?rr)); (_, Var ?v2); (_, Var ?v3);
       (_, Var (VI UInt ?ll)); (_, Var (VB true)); (_, Var ?v4); (_, Var ?v5)] =>
    let E := fresh "E" in
    pose proof (c_fits8 I T fuel d arr u l ll rr v1 v2 v3 v4 v5 ltac:(assumption) ltac:(assumption) ltac:(lia) ltac:(lia)) as E;
    cbv zeta in E; unfold fits8_stmt in E; rewrite E; clear E
  | fits _ _ _ => fail
  | _ => first [call_utf8 r | open_body r]
  end.
Ltac known r ::= call_fits8 r.
Lemma wrap_wrap x : wrap32 (wrap32 x) = wrap32 x.
Proof. unfold wrap32. lia. Qed.

Section Length.
Context (I : implementation) (T : UnicodeTables) (fuel d : nat).

Lemma c_length8 arr rest n : suffix rest arr -> Forall byte arr -> (List.length rest < fuel)%nat ->
  0 <= n < 0x100000000 -> one_before I arr rest ->
  call I T fuel (S (S (S (S d)))) "unicodeLength" [VP Char (into arr rest); VI UInt n]
  = do r <- unicodeLength8 (At rest) n; Done (VI UInt r, [None; None]).
Proof.
  intros Hs Ba Hf Hn Hm. unfold unicodeLength8. enter c_unicodeLength_pChar_UInt.
  pose proof (suffix_Forall _ _ _ Hs Ba) as Hb.
  read_unit byte; go; [reflexivity|].
  split_if; go; cbn [deref bind]; decide_eqs; [reflexivity|].
  change (- (1)) with (-1). go. cbn [negb].
  change (element [1; 2; 4; 8; 16; 32] 5) with (Done 32). go.
  loop_over "p".
  pose (u := 0). pose (r := 0). pose (pl := remaining (z :: rest) + 1). pose (ll := n).
  lazymatch goal with
  | |- context [loop ?k ?C ?B ?S (?a :: ?f :: ("r", _) :: ("usedThisTime", _) :: ("pLast", _) :: ("lengthLeft", _) :: ?e)] =>
    change (loop k C B S (a :: f :: ("r", Var (VI UInt 0)) :: ("usedThisTime", Var (VI UInt 0)) :: ("pLast", Var (VP Char (PAt arr (size arr - (remaining (z :: rest) + 1)))))
                     :: ("lengthLeft", Var (VI UInt n)) :: e)) with
      (loop k C B S (a :: f :: ("r", Var (VI UInt r)) :: ("usedThisTime", Var (VI UInt u)) :: ("pLast", Var (VP Char (PAt arr (size arr - pl))))
                     :: ("lengthLeft", Var (VI UInt ll)) :: e))
  end.
  lazymatch goal with |- context [unicodeLength8_loop ?b (S ?m) ?l _ _ _] =>
    change (unicodeLength8_loop b (S m) l (remaining (z :: rest) + 1) n 0) with (unicodeLength8_loop b (S m) l pl ll r);
    assert (M : (List.length l < S m)%nat) by lia; revert M; generalize (S m) end.
  assert (R : 0 <= r < 0x100000000) by (unfold r; lia).
  assert (L : 0 <= ll < 0x100000000) by (unfold ll; lia).
  clearbody u r pl ll. intros m M. revert u r R pl ll L m M. over_rest. name_body body. revert n0.
  destruct (n =? 0) eqn:En; cbn [negb]; induction n0 as [|k IH]; intros l Hl Bl Fl u r R pl ll L m M; try lia.
  all: destruct m as [|m]; [lia|].
  all: rewrite loop_S; go; read_unit byte; go; [reflexivity|].
  all: cbn [unicodeLength8_loop]; cbn [List.length negb andb] in Fl, M |- *; split_if; go; cbn [deref bind]; decide_eqs; [reflexivity|].
  - decoded; go; cbn [bind]; try reflexivity.
    change (Z.land (rangeFlagOf kUnicode)) with (Z.land 32).
    repeat (split_if; go); cbn [deref bind]; decide_eqs; cbn [negb andb orb bind incr]; rewrite ?norm_wrap, ?wrap_wrap; try reflexivity.
    pose proof (decode_shorter _ _ _ Bl Ed) as Sh; cbn [List.length] in Sh.
    apply IH; first [assumption | apply wrap_in | lia].
  - rewrite fits_check. lazymatch goal with |- _ = ?r => set (RR := r) end.
    destruct (fits (z0 :: l) z0 ll) as [[[|]|w]| |] eqn:Ef; go; [follow RR; reflexivity | follow RR; reflexivity | | follow RR; reflexivity | follow RR; reflexivity].
    decoded; go; [follow RR; reflexivity | | follow RR; reflexivity | follow RR; reflexivity].
    change (Z.land (rangeFlagOf kUnicode)) with (Z.land 32) in RR.
    repeat (split_if; go); rewrite ?norm_wrap, ?wrap_wrap; try (follow RR; reflexivity).
    follow RR.
    pose proof (decode_shorter _ _ _ Bl Ed) as Sh; cbn [List.length] in Sh.
    apply (IH p ltac:(assumption) ltac:(assumption) ltac:(lia) _ _ ltac:(apply wrap_in) (remaining (x :: p)) _ ltac:(apply wrap_in) m ltac:(lia)).
Qed.
End Length.

(* any pointer *)
Section Pointers.
Context (I : implementation) (T : UnicodeTables) (fuel : nat).

Lemma c_length8_any d arr p n : points byte fuel arr p -> may_step_back I arr p -> 0 <= n < 0x100000000 ->
  call I T fuel (S (S (S (S d)))) "unicodeLength" [vptr Char arr p; VI UInt n]
  = do r <- unicodeLength8 p n; Done (VI UInt r, [None; None]).
Proof.
  destruct p as [|rest]; cbn [points vptr].
  - intros _ _ Hn. unfold unicodeLength8. enter c_unicodeLength_pChar_UInt. reflexivity.
  - intros (Hs & Ha & Hf) Hb Hn. apply c_length8; assumption.
Qed.
Lemma c_length16_any d arr p n : points unit16 fuel arr p -> may_step_back I arr p -> 0 <= n < 0x100000000 ->
  call I T fuel (S (S (S (S d)))) "unicodeLength" [vptr Char16 arr p; VI UInt n]
  = do r <- unicodeLength16 p n; Done (VI UInt r, [None; None]).
Proof.
  destruct p as [|rest]; cbn [points vptr].
  - intros _ _ Hn. unfold unicodeLength16. enter c_unicodeLength_pChar16_UInt. reflexivity.
  - intros (Hs & Ha & Hf) Hb Hn. apply c_length16; try assumption. exact (suffix_Forall _ _ _ Hs Ha).
Qed.
Lemma c_length32_any d arr p n : (0 < fuel)%nat -> points unit32 fuel arr p -> may_step_to I n p -> 0 <= n < 0x100000000 ->
  call I T fuel (S (S (S (S d)))) "unicodeLength" [vptr Char32 arr p; VI UInt n]
  = do r <- unicodeLength32 p n; Done (VI UInt r, [None; None]).
Proof.
  destruct p as [|rest]; cbn [points vptr].
  - intros F _ _ Hn. unfold unicodeLength32. enter c_unicodeLength_pChar32_UInt.
    destruct fuel as [|k]; [lia | reflexivity].
  - intros F (Hs & Ha & Hf) Hb Hn. apply c_length32; try assumption. exact (suffix_Forall _ _ _ Hs Ha).
Qed.
End Pointers.
