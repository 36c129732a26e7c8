(* The parsed source of join does what Model/SplitJoin.v says. *)
From Coq Require Import ZArith List Bool String Lia.
From Verif Require Import Machine.
From Verif.Model Require Import Tables Internal Predicate Decode Str CodePage SplitJoin Trim.
From Verif.Cxx Require Import Syntax Semantics Program Values.
From Verif.Gen Require Import Source.
From Verif.Proof Require Import Bits CxxTools CxxRaw CxxInternal CxxDecode CxxPred CxxHelpers CxxChecks CxxUtf8 CxxSugar CxxConvert CxxLower CxxRanges CxxTrim.
Import ListNotations.
Local Open Scope string_scope.
Local Open Scope list_scope.
Local Open Scope Z_scope.

Ltac call_join r :=
  lazymatch r with
  | element ([0] ++ _) 0 => change r with (Done 0)
  | element ([bits Char 0] ++ _) 0 => change r with (Done 0)
  | _ => call_trim r
  end.
Ltac known r ::= call_join r.

Lemma elements_vec I t l : elements I (VVec t l) = Done (map (VS t) l).
Proof. reflexivity. Qed.

Lemma until_delim x : until_zero [x; 0] = basic_string (At [x; 0]).
Proof. cbn. destruct (x =? 0); reflexivity. Qed.
Ltac join_proof ss x :=
  enter c_join; destruct ss as [|s ss]; go; [reflexivity|];
  rewrite elements_vec; go;
  lazymatch goal with |- context [replace ?l ?n ?y] => change (replace l n y) with [y; 0]; try (rewrite (wrap8_id x) by (unfold byte in *; lia)) end;
  lazymatch goal with |- context [each "s" _ ?B (("first", Var (VB true)) :: ("r", Var (VS ?t [])) :: ?e)] =>
    assert (forall ss first r, each "s" (map (VS t) ss) B (("first", Var (VB first)) :: ("r", Var (VS t r)) :: e) =
      do r' <- join_loop ss [x; 0] first r;
      Done (Next, ("first", Var (VB (match ss with [] => first | _ => false end))) :: ("r", Var (VS t r')) :: e)) as L;
    [ let l := fresh "l" in let IH := fresh "IH" in
      intros l; induction l as [|? l IH]; intros first r; cbn [map join_loop];
      [ rewrite each_nil; reflexivity | ];
      rewrite each_cons; go; destruct first; cbn [negb]; go;
      [ rewrite IH; cbn [bind]; destruct l; reflexivity |];
      rewrite until_delim; destruct (basic_string (At [x; 0])) as [b| |]; [|reflexivity|reflexivity];
      cbn [bind]; go; rewrite IH; destruct l; reflexivity
    | ];
    rewrite L; clear L; cbn [join]; destruct (join_loop _ _ _ _); [|reflexivity|reflexivity]; go; reflexivity
  end.
Section Join.
Context (I : implementation) (T : UnicodeTables) (fuel d : nat).
Lemma c_join_32 ss x : unit32 x ->
  call I T fuel (S d) "join" [VVec Char32 ss; VI Char32 (norm I Char32 x)] = do r <- join ss x; Done (VS Char32 r, [None; None]).
Proof. intros Hx. join_proof ss x. Qed.
Lemma c_join_16 ss x : unit16 x ->
  call I T fuel (S d) "join" [VVec Char16 ss; VI Char16 (norm I Char16 x)] = do r <- join ss x; Done (VS Char16 r, [None; None]).
Proof. intros Hx. join_proof ss x. Qed.
Lemma c_join_8 ss x : byte x ->
  call I T fuel (S d) "join" [VVec Char ss; VI Char (norm I Char x)] = do r <- join ss x; Done (VS Char r, [None; None]).
Proof. intros Hx. join_proof ss x. Qed.
End Join.
