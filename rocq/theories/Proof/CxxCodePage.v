(* The parsed source of string_toutf8.cxx does what Model/CodePage.v says. *)
From Coq Require Import ZArith List Bool String Lia.
From Verif Require Import Machine.
From Verif.Model Require Import Tables Internal Predicate Decode Str CodePage.
From Verif.Cxx Require Import Syntax Semantics Program Values.
From Verif.Gen Require Import Source.
From Verif.Proof Require Import Bits CxxTools CxxRaw CxxInternal CxxDecode CxxPred CxxHelpers CxxChecks CxxUtf8 CxxSugar CxxConvert.
Import ListNotations.
Local Open Scope string_scope.
Local Open Scope list_scope.
Local Open Scope Z_scope.

Lemma bits_char x : 0 <= x < 256 -> bits Char x = x.
Proof. intros H. unfold bits, width. change (2 ^ 8) with 256. lia. Qed.

Lemma element_table l k : 0 <= k -> element l k = index l (Z.to_nat k).
Proof. intros H. rewrite <- element_index, Z2Nat.id by exact H. reflexivity. Qed.
Lemma index_Forall (P : Z -> Prop) l n x : Forall P l -> index l n = Done x -> P x.
Proof.
  intros H E. unfold index in E. destruct (nth_error l n) as [y|] eqn:N; [|discriminate]. injection E as <-.
  rewrite Forall_forall in H. apply H. exact (nth_error_In _ _ N).
Qed.
Definition is_unit16 x := (0 <=? x) && (x <? 0x10000).
Lemma all_units l : forallb is_unit16 l = true -> Forall unit16 l.
Proof. intros H. rewrite forallb_forall in H. apply Forall_forall. intros x Hx. specialize (H x Hx). unfold is_unit16 in H. red. lia. Qed.
Lemma cp1252_units : Forall unit16 cp125280_9F.
Proof. apply all_units. reflexivity. Qed.
Lemma cp1250_units : Forall unit16 cp125080_FF.
Proof. apply all_units. reflexivity. Qed.

Lemma until_copy l : until_zero l = cstring_copy l.
Proof. induction l as [|x l IH]; [reflexivity|]. cbn. now rewrite IH. Qed.
Lemma c_string_at arr rest : suffix rest arr -> c_string (into arr rest) = cstring_copy rest.
Proof.
  intros H. unfold c_string, into. pose proof (suffix_size _ _ H). replace (size arr - size rest <? 0) with false by lia.
  transitivity (until_zero rest); [|apply until_copy]. destruct H as [pre ->]. rewrite size_app. replace (size pre + size rest - size rest) with (size pre) by lia.
  unfold size. rewrite Nat2Z.id. f_equal. clear H0. induction pre; [reflexivity|]. exact IHpre.
Qed.

Ltac call_page r :=
  lazymatch r with
  | exec ?I ?R ?g ?fuel (SDeclArray _ "cp125280_9F" _ _) ?e =>
    change r with (@Done (ending * env) (Next, ("cp125280_9F", Var (VA Char16 cp125280_9F)) :: e))
  | exec ?I ?R ?g ?fuel (SDeclArray _ "cp125080_FF" _ _) ?e =>
    change r with (@Done (ending * env) (Next, ("cp125080_FF", Var (VA Char16 cp125080_FF)) :: e))
  | element ?l ?k => rewrite (element_table l k) by lia
  | call _ _ _ _ "encodeUtf8" [VI UChar ?c; VS Char ?s] => rewrite c_encodeUtf8_UChar by first [assumption | lia]
  | _ => call_convert r
  end.
Ltac known r ::= call_page r.

Lemma construct_copy I c t arr rest : suffix rest arr ->
  construct I c (TStr t) [VP t (into arr rest)] = do l <- cstring_copy rest; Done (VS t l).
Proof. intros H. cbn [construct]. rewrite c_string_at by exact H. destruct t; reflexivity. Qed.

(* one round of the loop over the bytes *)
Ltac page_loop f table units :=
  loop_over "p"; over_both;
  let n := fresh "n" in let IH := fresh "IH" in let res := fresh "res" in let l := fresh "l" in
  let Hl := fresh "Hl" in let Bl := fresh "Bl" in let Fl := fresh "Fl" in
  intros n; induction n as [|n IH]; intros res l Hl Bl Fl; [lia|];
  rewrite loop_S; go; read_unit byte; go; [reflexivity|];
  cbn [f]; cbn [List.length] in Fl;
  repeat (split_if; go); decide_eqs; try reflexivity;
  unfold tableRead;
  try lazymatch goal with
  | |- context [index table ?k] =>
    let E := fresh "E" in let X := fresh "X" in
    destruct (index table k) eqn:E; [|reflexivity|reflexivity]; pose proof (index_Forall _ _ _ _ units E) as X; red in X;
    go; repeat (split_if; go); cbn [bind]; decide_eqs; try reflexivity
  end;
  rewrite ?bits_char by lia; try (apply IH; first [assumption | lia]).

Section Page.
Context (I : implementation) (T : UnicodeTables) (fuel d : nat).

Lemma c_page_at arr rest t : suffix rest arr -> Forall byte rest -> (List.length rest < fuel)%nat -> int32 t ->
  call I T fuel (S (S d)) "toUtf8" [VP Char (into arr rest); VI Enum t]
  = do s <- toUtf8_cp (At rest) t; Done (VS Char s, [None; None]).
Proof.
  intros Hs Hb Hf Ht. red in Ht. unfold toUtf8_cp, kSrcUnicode, kSrcCP1252, kSrcCP1250.
  enter c_toUtf8_pChar_Enum. read_unit byte; go; [reflexivity|]. cbn [deref bind].
  rewrite (norm_char_eq I z 0) by lia. split_if; go; decide_eqs; [reflexivity|].
  split_if; go; decide_eqs.
  { rewrite construct_copy by assumption. change (basic_string (At (z :: rest))) with (cstring_copy (z :: rest)).
    destruct (cstring_copy (z :: rest)); go; reflexivity. }
  split_if; go; decide_eqs.
  { page_loop cp1252_loop cp125280_9F cp1252_units. }
  split_if; go; decide_eqs; [|reflexivity].
  page_loop cp1250_loop cp125080_FF cp1250_units.
Qed.
Lemma c_page arr p t : points byte fuel arr p -> int32 t ->
  call I T fuel (S (S d)) "toUtf8" [vptr Char arr p; VI Enum t]
  = do s <- toUtf8_cp p t; Done (VS Char s, [None; None]).
Proof.
  destruct p as [|rest]; intros Hp Ht.
  - enter c_toUtf8_pChar_Enum. reflexivity.
  - destruct Hp as (Hs & Ha & Hf). apply c_page_at; try assumption. exact (suffix_Forall _ _ _ Hs Ha).
Qed.
End Page.
