(* The parsed source of unicodeLength of string.cxx does what Model/Str.v says. *)
From Coq Require Import ZArith List Bool String Lia.
From Verif Require Import Machine.
From Verif.Model Require Import Tables Internal Predicate Decode Str.
From Verif.Cxx Require Import Syntax Semantics Program Values.
From Verif.Gen Require Import Source.
From Verif.Proof Require Import Bits CxxTools CxxRaw CxxInternal CxxDecode CxxPred CxxHelpers CxxChecks CxxUtf8 CxxSugar.
Import ListNotations.
Local Open Scope string_scope.
Local Open Scope list_scope.
Local Open Scope Z_scope.

(* a pointer [n] past [rest] may be formed *)
Definition may_go (I : implementation) (n : Z) (rest : list Z) : Prop :=
  pointer_checks I = false \/ n <= size rest.

Lemma advance_by I arr rest n : suffix rest arr -> 0 <= n -> may_go I n rest ->
  advance I (into arr rest) n = Done (PAt arr (size arr - size rest + n)).
Proof.
  intros H Hn Hm. unfold advance, into. pose proof (suffix_size _ _ H).
  destruct Hm as [-> | Hm]; [reflexivity|].
  replace ((0 <=? size arr - size rest + n) && (size arr - size rest + n <=? size arr)) with true by lia.
  rewrite andb_false_r. reflexivity.
Qed.

Lemma norm_wrap I x : norm I UInt (wrap32 x) = wrap32 x.
Proof. apply norm_uint, wrap_in. Qed.

Ltac call_length r :=
  lazymatch r with
  | advance _ ?q _ => first [is_var q; match goal with H : advance _ q _ = _ |- _ => rewrite H end | call_utf8 r]
  | _ => first [call_utf8 r | open_body r]
  end.
Ltac known r ::= call_length r.

Section Length.
Context (I : implementation) (T : UnicodeTables) (fuel d : nat).

Lemma c_length32 arr rest n : suffix rest arr -> Forall unit32 rest -> (List.length rest < fuel)%nat ->
  0 <= n < 0x100000000 -> may_go I n rest ->
  call I T fuel (S (S d)) "unicodeLength" [VP Char32 (into arr rest); VI UInt n]
  = do r <- unicodeLength32 (At rest) n; Done (VI UInt r, [None; None]).
Proof.
  intros Hs Hb Hf Hn Hm. unfold unicodeLength32. enter c_unicodeLength_pChar32_UInt.
  pose (used := 0). pose (r := 0). pose (q := into arr rest).
  lazymatch goal with
  | |- context [loop ?k ?C ?B ?S (?a :: ("r", _) :: ?c :: ("src", ?x) :: ?e)] =>
    change (loop k C B S (a :: ("r", Var (VI UInt 0)) :: c :: ("src", x) :: e)) with
      (loop k C B S (a :: ("r", Var (VI UInt r)) :: c :: ("src", Var (VP Char32 q)) :: e))
  end.
  change (unicodeLength32_loop n rest 0 0) with (unicodeLength32_loop n rest used r).
  assert (A : advance I q n = Done (PAt arr (size arr - size rest + n))) by (apply advance_by; first [assumption | lia]).
  assert (U : used = size rest - size rest) by (unfold used; lia).
  assert (R : 0 <= r < 0x100000000) by (unfold r; lia).
  clearbody used r q. clear Hm. revert A U. generalize (size rest) at 1 2. intros whole A.
  revert used r R. revert Hs Hb Hf. generalize rest. change fuel with (rounds fuel) at 1; generalize (rounds fuel).
  destruct (n =? 0) eqn:En; cbn [negb]; induction n0 as [|k IH]; intros l Hl Bl Fl used r R U; try lia.
  all: rewrite loop_S; go; read_unit unit32; go; [reflexivity|].
  all: cbn [unicodeLength32_loop]; rewrite En; cbn [List.length negb andb] in Fl |- *; split_if; go; decide_eqs; [reflexivity|].
  all: split_if; go; decide_eqs; [reflexivity|].
  all: split_if; go; decide_eqs; [reflexivity|]; cbn [orb].
  2: replace (size arr - size l =? size arr - whole + n) with (used + 1 =? n)
      by (unfold size in *; cbn [List.length] in U; lia); split_if; go; [|].
  all: replace (norm I UInt (wrap32 (r + 1))) with (wrap32 (r + 1)) by (rewrite norm_uint_wrap; unfold wrap32; lia).
  2: reflexivity.
  all: apply IH; first [assumption | apply wrap_in | unfold size in *; cbn [List.length] in *; lia].
Qed.

Lemma c_length16 arr rest n : suffix rest arr -> Forall unit16 rest -> (List.length rest < fuel)%nat ->
  0 <= n < 0x100000000 -> one_before I arr rest ->
  call I T fuel (S (S d)) "unicodeLength" [VP Char16 (into arr rest); VI UInt n]
  = do r <- unicodeLength16 (At rest) n; Done (VI UInt r, [None; None]).
Proof.
  intros Hs Hb Hf Hn Hm. unfold unicodeLength16. enter c_unicodeLength_pChar16_UInt.
  change (- (1)) with (-1). go.
  loop_over "p".
  pose (u := 0). pose (r := 0). pose (pl := remaining rest + 1). pose (ll := n).
  lazymatch goal with
  | |- context [loop ?k ?C ?B ?S (?a :: ("r", _) :: ("usedThisTime", _) :: ("pLast", _) :: ("lengthLeft", _) :: ?e)] =>
    change (loop k C B S (a :: ("r", Var (VI UInt 0)) :: ("usedThisTime", Var (VI UInt 0)) :: ("pLast", Var (VP Char16 (PAt arr (size arr - (remaining rest + 1)))))
                     :: ("lengthLeft", Var (VI UInt n)) :: e)) with
      (loop k C B S (a :: ("r", Var (VI UInt r)) :: ("usedThisTime", Var (VI UInt u)) :: ("pLast", Var (VP Char16 (PAt arr (size arr - pl))))
                     :: ("lengthLeft", Var (VI UInt ll)) :: e))
  end.
  change (unicodeLength16_loop (negb (n =? 0)) rest (remaining rest + 1) n 0) with (unicodeLength16_loop (negb (n =? 0)) rest pl ll r).
  assert (R : 0 <= r < 0x100000000) by (unfold r; lia).
  assert (L : 0 <= ll < 0x100000000) by (unfold ll; lia).
  clearbody u r pl ll. clear Hm.
  revert u r R pl ll L. revert Hs Hb Hf. generalize rest. change fuel with (rounds fuel) at 1; generalize (rounds fuel).
  destruct (n =? 0) eqn:En; cbn [negb]; induction n0 as [|k IH]; intros l Hl Bl Fl u r R pl ll L; try lia.
  all: rewrite loop_S; go; read_unit unit16; go; [reflexivity|].
  all: cbn [unicodeLength16_loop]; cbn [List.length negb andb] in Fl |- *; split_if; go; decide_eqs; [reflexivity|].
  all: split_if; go; decide_eqs; [reflexivity|].
  all: repeat (first [split_if | read_unit unit16]; go); decide_eqs; cbn [negb andb orb bind]; try reflexivity.
  all: rewrite ?norm_wrap; try reflexivity.
  - apply IH; first [assumption | apply wrap_in | cbn [List.length] in *; lia].
  - apply IH; first [assumption | apply wrap_in | cbn [List.length] in *; lia].
  - apply (IH l ltac:(assumption) ltac:(assumption) ltac:(cbn [List.length] in *; lia) _ _ ltac:(apply wrap_in) (remaining (z0 :: l))).
    apply wrap_in.
  - apply (IH (z0 :: l) ltac:(assumption) ltac:(assumption) ltac:(cbn [List.length] in *; lia) _ _ ltac:(apply wrap_in) (remaining (z :: z0 :: l))).
    apply wrap_in.
Qed.
End Length.
