(* The parsed source of the local helpers of string.cxx does what Model/Str.v says. *)
From Coq Require Import ZArith List Bool String Lia.
From Verif Require Import Machine.
From Verif.Model Require Import Tables Internal Predicate Decode Str.
From Verif.Cxx Require Import Syntax Semantics Program Values.
From Verif.Gen Require Import Source.
From Verif.Proof Require Import Bits CxxTools CxxRaw CxxInternal CxxDecode CxxPred.
Import ListNotations.
Local Open Scope string_scope.
Local Open Scope list_scope.
Local Open Scope Z_scope.

(* how often a loop may go round, apart from the fuel of what it does *)
Definition rounds (n : nat) : nat := n.
Lemma exec_for_rounds I R g fuel i c n a e :
  exec I R g fuel (SFor i c n a) e =
  scoped (fun e => do (_, e) <- exec I R g fuel i e;
                   loop (rounds fuel) (condition I R g c) (scoped (exec I R g fuel a)) (steps I R g n) e) e.
Proof. reflexivity. Qed.

Definition unit16 (x : Z) : Prop := 0 <= x < 0x10000.
Definition unit32 (x : Z) : Prop := 0 <= x < 0x100000000.

Lemma range_element t : badRange t = false -> element [1; 2; 4; 8; 16; 32] t = Done (rangeFlagOf t).
Proof.
  unfold badRange, kAscii, kUnicode. intros H.
  assert (t = 0 \/ t = 1 \/ t = 2 \/ t = 3 \/ t = 4 \/ t = 5) as [->|[->|[->|[->|[->| ->]]]]] by lia; reflexivity.
Qed.
Lemma range_flag t : 0 <= rangeFlagOf t <= 32.
Proof.
  unfold rangeFlagOf. generalize (Z.to_nat t). intros n.
  do 6 (destruct n as [|n]; [split; vm_compute; congruence|]). destruct n; split; vm_compute; congruence.
Qed.
Lemma char_flags c : 0 <= getCharEncodableRangeFlags c <= 0x8000.
Proof.
  unfold getCharEncodableRangeFlags, getUnicodeEncodableRangeFlag.
  repeat match goal with |- context [if ?b then _ else _] => destruct b end; split; vm_compute; congruence.
Qed.
Lemma first_flags8 c : 0 <= getRangeFlag8 c <= 0x8000.
Proof.
  unfold getRangeFlag8.
  repeat match goal with |- context [if ?b then _ else _] => destruct b end; split; vm_compute; congruence.
Qed.
Lemma first_flags16 c : 0 <= getRangeFlag16 c <= 0x8000.
Proof.
  unfold getRangeFlag16.
  repeat match goal with |- context [if ?b then _ else _] => destruct b end; split; vm_compute; congruence.
Qed.

(* where decodeUtf8 leaves its pointer *)
Definition lands (arr : list Z) (o : outcome (Z * ptr)) : Prop :=
  match o with
  | Done (c, q) => 0 <= c < 0x100000000 /\ match q with Null => True | At l => suffix l arr /\ l <> [] end
  | _ => True
  end.
Lemma next_lands arr lo hi rest k : suffix rest arr -> Forall byte arr ->
  (forall u p, byte u -> suffix (u :: p) arr -> lands arr (k u (u :: p))) -> lands arr (next_byte lo hi rest k).
Proof.
  intros Hs Hb Hk. unfold next_byte. destruct rest as [|x rest]; [exact I|]. cbn [incr bind].
  pose proof (suffix_tail _ _ _ Hs) as Ht. destruct rest as [|u p]; [exact I|]. cbn [deref bind].
  pose proof (Forall_inv (suffix_Forall _ _ _ Ht Hb)) as Hu.
  destruct (u =? 0); [cbn; repeat split; try lia; [exact Ht | discriminate]|].
  destruct (_ || _); [cbn; lia|]. now apply Hk.
Qed.
Lemma decode_lands arr rest : suffix rest arr -> Forall byte arr -> lands arr (decodeUtf8 rest).
Proof.
  intros Hs Hb. unfold decodeUtf8. destruct rest as [|u p] eqn:Er; [exact I|]. rewrite <- Er in *.
  replace (deref rest) with (Done u) by (rewrite Er; reflexivity). cbn [bind].
  assert (byte u) by (rewrite Er in Hs; exact (Forall_inv (suffix_Forall _ _ _ Hs Hb))). red in H.
  repeat first
  [ progress intros
  | apply next_lands; [assumption | assumption |]
  | match goal with |- lands _ (if ?b then _ else _) => destruct b eqn:? end
  | match goal with |- lands _ (let _ := _ in _) => cbv zeta end
  | split
  | match goal with |- _ :: _ <> [] => discriminate end
  | assumption | exact Logic.I
  | progress (cbn [lands]; unfold rawDecodeUtf8_2, rawDecodeUtf8_3, rawDecodeUtf8_4, rawDecodeUtf8_5, rawDecodeUtf8_6, wrap16, wrap32)
  | lia ].
  all: subst; try discriminate; try assumption.
Qed.

Lemma advance_none I arr rest : suffix rest arr -> advance I (into arr rest) 0 = Done (into arr rest).
Proof.
  intros H. unfold advance, into. pose proof (suffix_size _ _ H). pose proof (size_nonneg rest).
  replace (size arr - size rest + 0) with (size arr - size rest) by lia.
  replace ((0 <=? size arr - size rest) && (size arr - size rest <=? size arr)) with true by lia.
  rewrite andb_false_r. reflexivity.
Qed.
Lemma advance_two I arr a b rest :
  suffix (a :: b :: rest) arr -> advance I (into arr (a :: b :: rest)) 2 = Done (into arr rest).
Proof.
  intros H. unfold advance, into. pose proof (suffix_size _ _ H). rewrite !size_cons in *. pose proof (size_nonneg rest).
  replace (size arr - (1 + (1 + size rest)) + 2) with (size arr - size rest) by lia.
  replace ((0 <=? size arr - size rest) && (size arr - size rest <=? size arr)) with true by lia.
  rewrite andb_false_r. reflexivity.
Qed.

Ltac call_check r :=
  lazymatch r with
  | exec ?I ?R ?g ?f (SFor ?i ?c ?n ?a) ?e => rewrite (exec_for_rounds I R g f i c n a e)
  | match into ?a ?l with PNull => _ | PAt x y => @?z x y end => let r' := eval lazy beta iota zeta delta [into] in r in change r with r'
  | advance _ (into _ ?l) 0 => rewrite advance_none by assumption
  | advance _ (into _ (_ :: _ :: _)) 2 => rewrite advance_two by assumption
  | element [1; 2; 4; 8; 16; 32] ?t => rewrite (range_element t) by assumption
  | call _ _ _ _ "EncodingCheckPredicate::operator==" [VPred (m_mask ?p) _; VPred 0 0] =>
    rewrite (c_predEq _ _ _ _ p nullPredicate) by (assumption || (split; vm_compute; split; congruence))
  | call _ _ _ _ "EncodingCheckPredicate::operator()" [VPred (m_mask ?p) _; VI Char32 ?c] =>
    rewrite (c_pred32 _ _ _ _ p c) by (assumption || lia)
  | call _ _ _ _ "EncodingCheckPredicate::operator()" [VPred (m_mask ?p) _; VI Char16 ?c] =>
    rewrite (c_pred16 _ _ _ _ p c) by (assumption || lia)
  | call _ _ _ _ "getCharEncodableRangeFlags" [VI Char32 ?c] => pose proof (char_flags c); rewrite c_flags32 by lia
  | call _ _ _ _ "getCharEncodableRangeFlags" [VI Char16 ?c] => pose proof (char_flags c); rewrite c_flags16 by lia
  | call _ _ _ _ "getRangeFlag" [VI Char16 ?c] => pose proof (first_flags16 c); rewrite c_getRangeFlag16 by lia
  | call _ _ _ _ "getRangeFlag" [VI Char (norm _ Char ?c)] => pose proof (first_flags8 c); rewrite c_getRangeFlag8 by lia
  | _ => call_raw r
  end.
Ltac known r ::= call_check r.

(* reading an element: at the end of the array that is undefined *)
Ltac read_unit P :=
  lazymatch goal with
  | H : suffix ?l ?arr, B : Forall P ?l |- context [load ?I ?t (into ?arr ?l)] =>
    is_var l; destruct l as [|? ?];
    [ rewrite (load_into I t arr [] H); change (bind (deref []) (fun x => Done (VI t (norm I t x)))) with (@Undefined value)
    | let H' := fresh "Hs" in let B' := fresh "Hb" in let X := fresh "Hx" in
      pose proof (suffix_tail _ _ _ H) as H'; pose proof (Forall_inv_tail B) as B';
      pose proof (Forall_inv B) as X; red in X ]
  end.

(* before a loop over [p]: only the loop variable points at the rest, what else points there is forgotten *)
Ltac loop_over p :=
  lazymatch goal with
  | |- context [loop ?n ?C ?B ?S ((p, Var (VP ?t (into ?arr ?l))) :: ?e)] =>
    let q := fresh "q" in let Hq := fresh "Hq" in
    remember (into arr l) as q eqn:Hq in |- *;
    lazymatch goal with
    | |- context [loop n ?C ?B ?S ((p, Var (VP t q)) :: ?e)] =>
      replace ((p, Var (VP t q)) :: e) with ((p, Var (VP t (into arr l))) :: e) by (rewrite Hq; reflexivity)
    end;
    clear Hq
  end.

(* ... and the statement is made one about any rest and any number of rounds *)
Ltac over_rest :=
  lazymatch goal with
  | H : suffix (?z :: ?l) ?arr, B : Forall _ (?z :: ?l), F : (List.length (?z :: ?l) < ?fuel)%nat
    |- context [loop (rounds ?fuel) _ _ _ ((_, Var (VP _ (into ?arr (?z :: ?l)))) :: _)] =>
    revert H B F; generalize (z :: l); change fuel with (rounds fuel) at 1; generalize (rounds fuel);
    let n := fresh "n" in intros n
  end.

(* the tests every checking function starts with *)
Ltac check_start c Et :=
  lazymatch goal with |- context [badRange ?t] => destruct (badRange t) eqn:Et;
  [ unfold badRange, kAscii, kUnicode in Et; unfold vpred; enter c; go_all; first [reflexivity | exfalso; lia]
  | assert (0 <= t <= 5) by (unfold badRange, kAscii, kUnicode in Et; lia);
    pose proof (range_flag t);
    unfold vpred; enter c; split_if; [exfalso; lia|]; go; split_if; [exfalso; lia|]; go ] end.

Section Helpers.
Context (I : implementation) (T : UnicodeTables) (fuel d : nat).

Lemma c_encodable32 c : 0 <= c < 0x100000000 ->
  call I T fuel (S d) "isUtf16Encodable" [VI Char32 c] = Done (VB (isUtf16Encodable c), [None]).
Proof.
  intros H. enter c_isUtf16Encodable. go_all. all: unfold isUtf16Encodable; change (wrap32 (Z.lnot 0x1fffff)) with 0xffe00000; decide_eqs. all: finish.
Qed.
Lemma c_escaped16 c : 0 <= c < 0x10000 ->
  call I T fuel (S (S d)) "isUtf16EscapedRange" [VI Char16 c] = Done (VB (isUtf16EscapedRange c), [None]).
Proof.
  intros H. enter c_isUtf16EscapedRange. go_all; unfold isUtf16EscapedRange; finish.
Qed.
Lemma c_escaped32 c : 0 <= c < 0x100000000 ->
  call I T fuel (S (S d)) "isUtf16EscapedRange" [VI Char32 c] = Done (VB (isUtf16EscapedRange c), [None]).
Proof.
  intros H. enter c_isUtf16EscapedRange. go_all; unfold isUtf16EscapedRange; finish.
Qed.
Lemma c_starts arr u rest : suffix (u :: rest) arr -> byte u ->
  call I T fuel (S d) "sequenceSizeCharStarts" [VP Char (into arr (u :: rest))]
  = Done (VI Int (sequenceSizeCharStarts u), [None]).
Proof.
  intros H Hb. red in Hb. enter c_sequenceSizeCharStarts. go_all; unfold sequenceSizeCharStarts; finish.
Qed.
Lemma c_firstAsUtf8 arr rest : suffix rest arr -> Forall byte rest ->
  call I T fuel (S (S d)) "isFirstHalfUtf16AsUtf8" [VP Char (into arr rest)]
  = do b <- isFirstHalfUtf16AsUtf8 rest; Done (VB b, [None]).
Proof.
  intros H Hb. enter c_isFirstHalfUtf16AsUtf8.
  do 3 (read_next; go; [reflexivity|]). reflexivity.
Qed.
Lemma c_secondAsUtf8 arr rest : suffix rest arr -> Forall byte rest ->
  call I T fuel (S (S d)) "isSecondHalfUtf16AsUtf8" [VP Char (into arr rest)]
  = do b <- isSecondHalfUtf16AsUtf8 rest; Done (VB b, [None]).
Proof.
  intros H Hb. enter c_isSecondHalfUtf16AsUtf8.
  do 3 (read_next; go; [reflexivity|]). reflexivity.
Qed.
End Helpers.

