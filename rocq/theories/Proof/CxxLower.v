(* The parsed source of string_tolower.cxx does what Model/Lower.v says. *)
From Coq Require Import ZArith List Bool String Lia.
From Verif Require Import Machine.
From Verif.Model Require Import Tables Internal Predicate Decode Str Lower.
From Verif.Cxx Require Import Syntax Semantics Program Values.
From Verif.Gen Require Import Source.
From Verif.Spec Require Import Source.
From Verif.Proof Require Import Bits CxxTools CxxRaw CxxInternal CxxDecode CxxPred CxxHelpers CxxChecks CxxUtf8 CxxSugar CxxConvert.
Import ListNotations.
Local Open Scope string_scope.
Local Open Scope list_scope.
Local Open Scope Z_scope.

Lemma index_at I t arr rest t' k : suffix rest arr -> 0 <= k ->
  index_of I (VP t (into arr rest)) (VI t' k) = do x <- index rest (Z.to_nat k); Done (VI t (norm I t x)).
Proof.
  intros H Hk. rewrite index_ptr. destruct (Z.le_gt_cases k (size rest)) as [L|L]; [apply index_into; [assumption | lia]|].
  unfold index. replace (nth_error rest (Z.to_nat k)) with (@None Z)
    by (symmetry; apply nth_error_None; unfold size in L; lia).
  unfold advance, into. destruct (_ && _); [reflexivity|]. cbn [bind]. destruct H as [pre ->]. unfold load. rewrite size_app.
  replace (size pre + size rest - size rest + k) with (size pre + k) by lia. rewrite element_app by lia.
  rewrite <- (Z2Nat.id k) by lia. rewrite element_index. unfold index.
  replace (nth_error rest (Z.to_nat k)) with (@None Z)
    by (symmetry; apply nth_error_None; unfold size in L; lia). reflexivity.
Qed.

Ltac lang_index r :=
  lazymatch r with
  | index_of ?I (VP ?t (into ?arr ?l)) (VI ?t' ?k) =>
    rewrite (index_at I t arr l t' k) by (assumption || lia);
    let n := eval vm_compute in (Z.to_nat k) in change (Z.to_nat k) with n
  | index (?x :: _) O => change r with (Done x)
  | index (_ :: ?l) (S ?n) => change r with (index l n)
  | index [] _ => change r with (@Undefined Z)
  | _ => call_convert r
  end.
Ltac known r ::= lang_index r.

Ltac lang_next :=
  lazymatch goal with
  | |- ?g = _ => let h := head g in
    lazymatch h with index ?l O => destruct l as [|? ?]; [change (index [] 0) with (@Undefined Z)|] end
  end.

Ltac lang_if :=
  lazymatch goal with
  | |- ?g = _ => let h := head g in
    lazymatch h with
    | if norm ?I Char ?a =? norm ?I Char ?b then _ else _ =>
      rewrite (norm_char_eq I a b) by lia;
      first [ lazymatch goal with H : (a =? b) = _ |- _ => rewrite H end | destruct (a =? b) eqn:? ]
    end
  end.
Ltac turk :=
  lazymatch goal with |- ?g = _ => let h := head g in lazymatch h with Done _ => idtac | Undefined => idtac end end;
  unfold isTurkicLang, index; cbn [nth_error bind]; rewrite ?norm_char_eq by lia; decide_eqs; cbn [andb orb];
  rewrite ?orb_false_r, ?andb_true_r; first [reflexivity | repeat lazymatch goal with |- context [?a =? ?b] => destruct (a =? b) end; reflexivity].
Ltac lang_byte :=
  lang_next; go; [turk|];
  lazymatch goal with
  | B : Forall byte (?z :: ?l) |- _ =>
    let H := fresh "Hz" in let B' := fresh "B" in
    pose proof (Forall_inv B) as H; pose proof (Forall_inv_tail B) as B'; red in H; clear B
  end.

Section Turkic.
Context (I : implementation) (T : UnicodeTables) (fuel d : nat).

Lemma c_turkic_at arr rest : suffix rest arr -> Forall byte rest ->
  call I T fuel (S d) "isTurkicLang" [VP Char (into arr rest)]
  = do b <- isTurkicLang (At rest); Done (VB b, [None]).
Proof.
  intros Hs Hb. enter c_isTurkicLang.
  lang_byte. repeat (lang_if; go); [turk|].
  lang_byte. repeat (lang_if; go); [turk|].
  lang_byte. repeat (lang_if; go). all: try turk.
  lang_byte. repeat (lang_if; go). all: try turk.
Qed.
Lemma c_turkic arr p : points byte fuel arr p ->
  call I T fuel (S d) "isTurkicLang" [vptr Char arr p] = do b <- isTurkicLang p; Done (VB b, [None]).
Proof.
  destruct p as [|rest].
  - intros _. enter c_isTurkicLang. reflexivity.
  - intros (Hs & Ha & Hf). apply c_turkic_at; [assumption|]. exact (suffix_Forall _ _ _ Hs Ha).
Qed.
End Turkic.

Lemma c_lower_func I T fuel d c : call I T fuel (S d) "internal::toLower" [VI Char32 c] = Done (VI Char32 (t_lower T c), [None]).
Proof. reflexivity. Qed.
Lemma c_turkic_func I T fuel d c : call I T fuel (S d) "internal::turkicToLower" [VI Char32 c] = Done (VI Char32 (t_turkic T c), [None]).
Proof. reflexivity. Qed.

Ltac call_lower r :=
  lazymatch r with
  | call _ _ _ _ "internal::toLower" [VI Char32 ?c] => rewrite c_lower_func
  | call _ _ _ _ "internal::turkicToLower" [VI Char32 ?c] => rewrite c_turkic_func
  | call _ _ _ _ "isTurkicLang" [VP Char PNull] => rewrite (c_turkic _ _ _ _ [] Null Logic.I)
  | call _ _ _ _ "isTurkicLang" [VP Char (into ?arr ?l)] => rewrite (c_turkic _ _ _ _ arr (At l)) by assumption
  | _ => lang_index r
  end.
Ltac known r ::= call_lower r.

Lemma elements_str I t l : elements I (VS t l) = Done (map (fun x => VI t (norm I t x)) l).
Proof. reflexivity. Qed.
Lemma each_nil x body e : each x [] body e = Done (Next, e).
Proof. reflexivity. Qed.
Lemma each_cons x v l body e :
  each x (v :: l) body e =
  do (r, e') <- body ((x, Var v) :: e);
  match r with
  | Next => each x l body (leave e e')
  | Broken => Done (Next, leave e e')
  | Returned v => Done (Returned v, leave e e')
  end.
Proof. reflexivity. Qed.

Section Lower.
Context (I : implementation) (T : UnicodeTables) (fuel d : nat).

Lemma c_toLower_32 s arr p : units_to_units T -> Forall unit32 s -> points byte fuel arr p ->
  call I T fuel (S (S d)) "toLower" [VS Char32 s; vptr Char arr p]
  = do r <- toLower_32 T s p; Done (VS Char32 r, [None; None]).
Proof.
  intros [TL TT] Hs Hp. unfold toLower_32.
  assert (exists q, vptr Char arr p = VP Char q) as [q E] by (destruct p; eexists; reflexivity).
  rewrite E. enter c_toLower_sChar32_pChar. rewrite <- E, c_turkic by assumption.
  destruct (isTurkicLang p) as [[|]| |]; [| |reflexivity|reflexivity]; go; cbn [bind].
  all: rewrite elements_str; go.
  all: lazymatch goal with |- ?l = Done (VS Char32 ?m, ?o) => change (l = Done (VS Char32 ([] ++ m), o)) end.
  all: generalize (VS Char32 s); intros v; generalize (@nil Z); induction Hs as [|c s Hc Hs IH]; intros res; cbn [map].
  1, 3: rewrite each_nil, app_nil_r; go; reflexivity.
  all: rewrite each_cons; red in Hc; pose proof (TL c Hc) as HL; pose proof (TT c Hc) as HT; go.
  all: rewrite IH, <- app_assoc; reflexivity.
Qed.
End Lower.
