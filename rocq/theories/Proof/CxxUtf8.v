(* The parsed source of the local isUtf8 of string.cxx does what Model/Str.v says. *)
From Coq Require Import ZArith List Bool String Lia.
From Verif Require Import Machine.
From Verif.Model Require Import Tables Internal Predicate Decode Str.
From Verif.Cxx Require Import Syntax Semantics Program Values.
From Verif.Gen Require Import Source.
From Verif.Proof Require Import Bits CxxTools CxxRaw CxxInternal CxxDecode CxxPred CxxHelpers.
Import ListNotations.
Local Open Scope string_scope.
Local Open Scope list_scope.
Local Open Scope Z_scope.

(* a pointer one before [rest] may be formed *)
Definition one_before (I : implementation) (arr rest : list Z) : Prop :=
  pointer_checks I = false \/ size rest < size arr.

Lemma advance_back I arr rest : suffix rest arr -> one_before I arr rest ->
  advance I (into arr rest) (-1) = Done (PAt arr (size arr - (remaining rest + 1))).
Proof.
  intros H Hb. unfold advance, into. pose proof (suffix_size _ _ H). pose proof (size_nonneg rest).
  replace (size arr - size rest + -1) with (size arr - (remaining rest + 1)) by (unfold size, remaining; lia).
  destruct Hb as [-> | Hb]; [reflexivity|].
  replace ((0 <=? size arr - (remaining rest + 1)) && (size arr - (remaining rest + 1) <=? size arr)) with true
    by (unfold size, remaining in *; lia).
  rewrite andb_false_r. reflexivity.
Qed.

Lemma decode_shorter l c p : Forall byte l -> decodeUtf8 l = Done (c, At p) -> (List.length p <= List.length l)%nat.
Proof.
  intros H E. pose proof (decode_lands l l (suffix_refl l) H) as D. rewrite E in D. cbn [lands] in D.
  destruct D as (_ & [pre D] & _). rewrite D, app_length. lia.
Qed.

Lemma wrap_in x : 0 <= wrap32 x < 0x100000000.
Proof. unfold wrap32. lia. Qed.

Ltac decoded :=
  lazymatch goal with
  | Hs : suffix ?l ?arr, Ba : Forall byte ?arr |- context [match decodeUtf8 ?l with _ => _ end] =>
    let D := fresh "D" in let Ed := fresh "Ed" in let c := fresh "c" in let p := fresh "p" in
    pose proof (decode_lands arr l Hs Ba) as D;
    destruct (decodeUtf8 l) as [[c [|p]]| |] eqn:Ed; cbn [lands vptr] in D |- *;
    [| let x := fresh "x" in let S := fresh "Hs" in let N := fresh "N" in
       destruct D as (D & S & N); destruct p as [|x p]; [destruct (N eq_refl)|];
       let S' := fresh "Hs" in let B := fresh "Hb" in let X := fresh "Hx" in
       pose proof (suffix_tail _ _ _ S) as S'; pose proof (suffix_Forall _ _ _ S Ba) as B;
       pose proof (Forall_inv B) as X; red in X; pose proof (Forall_inv_tail B) | |]
  end.

Ltac call_utf8 r :=
  lazymatch r with
  | call _ _ _ _ "isFirstHalfUtf16AsUtf8" _ => rewrite c_firstAsUtf8 by assumption
  | call _ _ _ _ "isSecondHalfUtf16AsUtf8" _ => rewrite c_secondAsUtf8 by assumption
  | call _ _ _ _ "sequenceSizeCharStarts" _ => rewrite c_starts by assumption
  | call _ _ _ _ "decodeUtf8" _ => rewrite c_decode by assumption
  | advance _ (into _ _) (-1) => rewrite advance_back by assumption
  | convert ?I _ (TI UInt) (VI Int (sequenceSizeCharStarts ?z)) =>
    change r with (Done (VI UInt (norm I UInt (sequenceSizeCharStarts z)))); rewrite (norm_uint_wrap I (sequenceSizeCharStarts z))
  | convert ?I _ (TI UInt) (VI Long (size ?arr - size ?q - (size ?arr - ?pl))) =>
    replace r with (Done (VI UInt (wrap32 (pl - remaining q))))
      by (change r with (Done (VI UInt (norm I UInt (size arr - size q - (size arr - pl))))); rewrite norm_uint_wrap;
          do 3 f_equal; unfold size, remaining; lia);
    pose proof (wrap_in (pl - remaining q))
  | _ => call_check r
  end.
(* the body of a loop is kept under a name *)
Ltac open_body r :=
  lazymatch r with ?b ?e => is_var b; let B := eval cbv delta [b] in b in change (b e) with (B e) end.
Ltac name_body body :=
  lazymatch goal with |- context [loop _ _ ?B _ _] => set (body := B) in * end.
Ltac known r ::= first [call_utf8 r | open_body r].

(* a read past the end *)
Ltac split_half :=
  lazymatch goal with
  | |- ?l = _ =>
    let h := head l in
    lazymatch h with
    | isSecondHalfUtf16AsUtf8 ?p => destruct (isSecondHalfUtf16AsUtf8 p) as [[|]| |] eqn:?
    | isFirstHalfUtf16AsUtf8 ?p => destruct (isFirstHalfUtf16AsUtf8 p) as [[|]| |] eqn:?
    end
  end; cbn [bind negb andb orb].
(* follow the model along the decisions made *)
Ltac follow R :=
  unfold R;
  repeat first
  [ match goal with H : ?b = true |- context [?b] => rewrite H | H : ?b = false |- context [?b] => rewrite H end
  | match goal with H : ?o = _ |- context [?o] => lazymatch type of o with outcome _ => rewrite H end end
  | progress cbn [bind deref incr negb andb orb] ].
Ltac show_head := lazymatch goal with |- ?l = ?r => let h := head l in idtac "HEAD:" h; idtac "RHS:" r end.
(* source/string.cxx:250-271, the statement that looks whether the sequence fits *)
Definition fits_stmt : stmt :=
  (SIf (EVar "lengthTerminated")
  (SSeq (SIf (EBin Eq (EVar "seqStarts") (ELit false 3))
  (SSeq (SIf (EAnd (EBin Gt (EVar "lengthLeft") (ELit false 1)) (ECall "isSecondHalfUtf16AsUtf8" [(EVar "p")]))
  (SReturn (Some (EBool false)))
  (SSkip))
  (SIf (EAnd (EBin Ge (EVar "lengthLeft") (ELit false 3)) (ECall "isFirstHalfUtf16AsUtf8" [(EVar "p")]))
  (SExpr (EAssign "seqStarts" (ELit false 6)))
  (SSkip)))
  (SSkip))
  (SIf (EBin Gt (EVar "seqStarts") (EVar "lengthLeft"))
  (SReturn (Some (EBool true)))
  (SSkip)))
  (SSkip)).

(* what it finds: an answer, or how long the sequence is *)
Definition fits (p : list Z) (uc ll : Z) : outcome (bool + Z) :=
  lengthCheck p uc ll (inl false) (inl true) (fun s => Done (inr s)).
Lemma fits_check {A} p uc ll (x y : A) k :
  lengthCheck p uc ll x y k
  = do r <- fits p uc ll; match r with inl false => Done x | inl true => Done y | inr s => k s end.
Proof.
  unfold fits, lengthCheck. destruct (wrap32 (sequenceSizeCharStarts uc) =? 3).
  - destruct (ll >? 1); [destruct (isSecondHalfUtf16AsUtf8 p) as [[|]| |]; try reflexivity|]; cbn [bind];
      (destruct (ll >=? 3); [destruct (isFirstHalfUtf16AsUtf8 p) as [[|]| |]; try reflexivity|]; cbn [bind];
       match goal with |- context [if ?b then _ else _] => destruct b; reflexivity end).
  - match goal with |- context [if ?b then _ else _] => destruct b; reflexivity end.
Qed.
Lemma fits_range p uc ll s : fits p uc ll = Done (inr s) -> 0 <= s < 0x100000000.
Proof.
  unfold fits, lengthCheck. intros H.
  assert (W : 0 <= wrap32 (sequenceSizeCharStarts uc) < 0x100000000) by (unfold wrap32; lia).
  revert H. destruct (wrap32 (sequenceSizeCharStarts uc) =? 3).
  - destruct (ll >? 1); [destruct (isSecondHalfUtf16AsUtf8 p) as [[|]| |]; try discriminate|]; cbn [bind];
      (destruct (ll >=? 3); [destruct (isFirstHalfUtf16AsUtf8 p) as [[|]| |]; try discriminate|]; cbn [bind];
       match goal with |- context [if ?b then _ else _] => destruct b end; intros [=]; lia).
  - match goal with |- context [if ?b then _ else _] => destruct b end; intros [=]; lia.
Qed.

Section Utf8.
Context (I : implementation) (T : UnicodeTables) (fuel d : nat).

Lemma c_fits arr u l ll v1 v2 v3 v4 v5 v6 v7 v8 v9 : suffix (u :: l) arr -> Forall byte (u :: l) -> 0 <= ll < 0x100000000 ->
  let e s := [("seqStarts", Var (VI UInt s)); ("rangeFlag", Var v1);
    ("p", Var (VP Char (into arr (u :: l)))); ("usedThisTime", Var v2); ("pLast", Var v3);
    ("lengthLeft", Var (VI UInt ll)); ("isNullPred", Var v4); ("restrictToThis", Var v5);
    ("lengthTerminated", Var (VB true)); ("test", Var v6); ("testLength", Var v7); ("targetRange", Var v8);
    ("pred", Var v9)] in
  exists s', exec I (call I T fuel (S (S (S d)))) (G0 T) fuel fits_stmt (e (wrap32 (sequenceSizeCharStarts u)))
  = do r <- fits (u :: l) u ll;
    match r with
    | inl b => Done (Returned (VB b), e s')
    | inr s => Done (Next, e s)
    end.
Proof.
  intros Hs Hb Hl. cbv zeta. unfold fits, lengthCheck.
  assert (W : 0 <= wrap32 (sequenceSizeCharStarts u) < 0x100000000) by (unfold wrap32; lia).
  revert W. generalize (wrap32 (sequenceSizeCharStarts u)). intros s W.
  set (yes o := match o with Done true => true | _ => false end).
  exists (if (s =? 3) && negb ((ll >? 1) && yes (isSecondHalfUtf16AsUtf8 (u :: l)))
             && ((ll >=? 3) && yes (isFirstHalfUtf16AsUtf8 (u :: l))) then 6 else s).
  unfold fits_stmt. lazymatch goal with |- _ = ?r => set (R := r) end.
  go. repeat (first [split_if | split_half]; go).
  all: subst R; decide_eqs;
    repeat match goal with H : ?o = ?x |- context [?o] => lazymatch type of o with outcome _ => rewrite H end end;
    cbn [bind andb negb yes]; decide_eqs; cbn [bind andb negb yes]; try reflexivity.
Qed.
End Utf8.


Ltac call_fits r :=
  lazymatch r with
  | exec ?I (call ?I ?T ?fuel (S (S (S ?d)))) _ _ (SIf (EVar "lengthTerminated") (SSeq (SIf (EBin Eq (EVar "seqStarts") _) _ _) _) SSkip)
      [_; (_, Var ?v1); (_, Var (VP Char (into ?arr (?u :: ?l)))); (_, Var ?v2); (_, Var ?v3); (_, Var (VI UInt ?ll));
       (_, Var ?v4); (_, Var ?v5); (_, Var (VB true)); (_, Var ?v6); (_, Var ?v7); (_, Var ?v8); (_, Var ?v9)] =>
    let s := fresh "s" in let E := fresh "E" in
    destruct (c_fits I T fuel d arr u l ll v1 v2 v3 v4 v5 v6 v7 v8 v9) as [s E]; [assumption | assumption | lia |];
    unfold fits_stmt in E; rewrite E; clear E
  | fits _ _ _ => fail
  | _ => first [call_utf8 r | open_body r]
  end.
Ltac known r ::= call_fits r.

Section Utf8n.
Context (I : implementation) (T : UnicodeTables) (fuel d : nat).

Lemma c_isUtf8_n arr rest n t pred : suffix rest arr -> Forall byte arr -> (List.length rest < fuel)%nat ->
  one_before I arr rest ->
  0 < n < 0x100000000 -> -0x80000000 <= t < 0x80000000 -> pred_ok pred ->
  call I T fuel (S (S (S (S d)))) "isUtf8" [VP Char (into arr rest); VI UInt n; VI Enum t; vpred pred]
  = do b <- isUtf8_impl T (At rest) n t pred; Done (VB b, [None; None; None; None]).
Proof.
  intros Hs Ba Hf Ho Hn Ht Hp. unfold isUtf8_impl. 
  assert (En : (n =? 0) = false) by lia. 
  check_start c_isUtf8_pChar_UInt_Enum_Pred Et.
  pose proof (suffix_Forall _ _ _ Hs Ba) as Hb.
  read_unit byte; go; [reflexivity|].
  split_if; go; cbn [deref bind]; decide_eqs; [reflexivity|].
  change (- (1)) with (-1). go. rewrite En; cbn [negb].
  generalize (remaining (z :: rest) + 1). intros pl.
  assert (M : (List.length (z :: rest) < S (List.length (z :: rest)))%nat) by lia. revert M.
  generalize (S (List.length (z :: rest))). intros m M. 
  loop_over "p".
  pose (u := 0). pose (pl' := pl). pose (ll := n).
  lazymatch goal with
  | |- context [loop ?k ?C ?B ?S (?a :: ("usedThisTime", ?b) :: ("pLast", ?c) :: ("lengthLeft", ?x) :: ?e)] =>
    change (loop k C B S (a :: ("usedThisTime", b) :: ("pLast", c) :: ("lengthLeft", x) :: e)) with
      (loop k C B S (a :: ("usedThisTime", Var (VI UInt u)) :: ("pLast", Var (VP Char (PAt arr (size arr - pl'))))
                     :: ("lengthLeft", Var (VI UInt ll)) :: e))
  end.
  lazymatch goal with |- context [isUtf8_loop ?a ?b ?c ?d ?m ?l pl n] =>
    change (isUtf8_loop a b c d m l pl n) with (isUtf8_loop a b c d m l pl' ll) end.
  assert (L : 0 < ll < 0x100000000) by exact Hn. clearbody u pl' ll.
  revert u pl' ll L m M. over_rest. revert n0.
  induction n0 as [|k IH]; intros l Hl Bl Fl u pl' ll L m M; [lia|]. destruct m as [|m]; [lia|].
  name_body body. rewrite loop_S. go. read_unit byte; go; [reflexivity|].
  cbn [isUtf8_loop]. cbn [List.length] in Fl, M. cbn [deref bind].
  rewrite fits_check. lazymatch goal with |- _ = ?r => set (R := r) end.
  split_if; go; [follow R; reflexivity|].
  split_if; go; [follow R; reflexivity|].
  destruct (fits (z0 :: l) z0 ll) as [[b|w]| |] eqn:Ef; go; [follow R; destruct b; reflexivity | | follow R; reflexivity | follow R; reflexivity].
  pose proof (fits_range _ _ _ _ Ef).
  decoded; go; [follow R; reflexivity | | follow R; reflexivity | follow R; reflexivity].
  split_if; go; [follow R; reflexivity|].
  repeat (split_if; go); try (follow R; reflexivity).
  all: follow R.
  all: replace (wrap32 (ll - wrap32 (pl' - remaining (x :: p)))) with (ll - wrap32 (pl' - remaining (x :: p)))
    by (symmetry; apply Z.mod_small; lia).
  all: pose proof (decode_shorter _ _ _ Bl Ed) as Sh; cbn [List.length] in Sh.
  all: apply (IH p ltac:(assumption) ltac:(assumption) ltac:(lia) _ (remaining (x :: p)) (ll - wrap32 (pl' - remaining (x :: p))) ltac:(lia) m ltac:(lia)).
Qed.

Lemma c_isUtf8_0 arr rest t pred : suffix rest arr -> Forall byte arr -> (List.length rest < fuel)%nat ->
  one_before I arr rest ->
  -0x80000000 <= t < 0x80000000 -> pred_ok pred ->
  call I T fuel (S (S (S (S d)))) "isUtf8" [VP Char (into arr rest); VI UInt 0; VI Enum t; vpred pred]
  = do b <- isUtf8_impl T (At rest) 0 t pred; Done (VB b, [None; None; None; None]).
Proof.
  intros Hs Ba Hf Ho Ht Hp. unfold isUtf8_impl. check_start c_isUtf8_pChar_UInt_Enum_Pred Et.
  pose proof (suffix_Forall _ _ _ Hs Ba) as Hb.
  read_unit byte; go; [reflexivity|].
  split_if; go; cbn [deref bind]; decide_eqs; [reflexivity|].
  change (- (1)) with (-1). go. change (negb (0 =? 0)) with false.
  generalize (remaining (z :: rest) + 1). intros pl.
  assert (M : (List.length (z :: rest) < S (List.length (z :: rest)))%nat) by lia. revert M.
  generalize (S (List.length (z :: rest))). intros m M. revert m M.
  loop_over "p". over_rest.
  induction n as [|n IH]; intros l Hl Bl Fl m M; [lia|]. destruct m as [|m]; [lia|].
  rewrite loop_S. go. read_unit byte; go; [reflexivity|].
  cbn [isUtf8_loop]. cbn [List.length] in Fl, M. cbn [deref bind].
  split_if; go; [reflexivity|]. split_if; go; [reflexivity|].
  decoded; go; cbn [bind]; try reflexivity. cbn [andb].
  repeat (split_if; go); cbn [deref bind]; decide_eqs; cbn [negb andb orb bind incr]; try reflexivity.
  all: pose proof (decode_shorter _ _ _ Bl Ed) as Sh; cbn [List.length] in Sh.
  all: apply IH; first [assumption | lia].
Qed.

End Utf8n.
