(* The parsed source of string_trim.hxx does what Model/Trim.v says. *)
From Coq Require Import ZArith List Bool String Lia.
From Verif Require Import Machine.
From Verif.Model Require Import Tables Internal Predicate Decode Str SplitJoin Trim.
From Verif.Cxx Require Import Syntax Semantics Program Values.
From Verif.Gen Require Import Source.
From Verif.Proof Require Import Bits CxxTools CxxRaw CxxInternal CxxDecode CxxPred CxxHelpers CxxChecks CxxUtf8 CxxSugar CxxConvert CxxRanges.
Import ListNotations.
Local Open Scope string_scope.
Local Open Scope list_scope.
Local Open Scope Z_scope.

Lemma exec_while_rounds I R g fuel c a e :
  exec I R g fuel (SWhile c a) e =
  loop (rounds fuel) (condition I R g c) (scoped (exec I R g fuel a)) (steps I R g []) e.
Proof. reflexivity. Qed.

Ltac call_trim r :=
  lazymatch r with
  | exec ?I ?R ?g ?f (SWhile ?c ?a) ?e => rewrite (exec_while_rounds I R g f c a e)
  | _ => call_convert r
  end.
Ltac known r ::= call_trim r.

Lemma last_element (l : list Z) : l <> [] -> element (l ++ [0]) (size l - 1) = Done (last l 0).
Proof.
  intros H. destruct (exists_last H) as (l' & x & ->). rewrite size_app, last_last, <- app_assoc.
  replace (size l' + size [x] - 1) with (size l' + 0) by (change (size [x]) with 1; lia).
  rewrite element_app by lia. reflexivity.
Qed.
Lemma first_element (x : Z) l : element ((x :: l) ++ [0]) 0 = Done x.
Proof. reflexivity. Qed.
Lemma firstn_last (l : list Z) : firstn (Z.to_nat (size l - 1)) l = removelast l.
Proof. rewrite removelast_firstn_len. f_equal. unfold size. lia. Qed.
Lemma last_Forall (P : Z -> Prop) l : l <> [] -> Forall P l -> P (last l 0) /\ Forall P (removelast l).
Proof.
  intros N H. destruct (exists_last N) as (l' & x & ->). rewrite last_last, removelast_last.
  apply Forall_app in H as [H1 H2]. split; [exact (Forall_inv H2) | exact H1].
Qed.
Lemma removelast_length (l : list Z) : l <> [] -> S (List.length (removelast l)) = List.length l.
Proof. intros N. destruct (exists_last N) as (l' & x & ->). rewrite removelast_last, app_length. cbn. lia. Qed.

Ltac small_size :=
  unfold size in *; cbn [List.length] in *; lia.
Ltac size_steps I x v :=
  rewrite ?(norm_size I (size (x :: v))) by small_size;
  rewrite ?result_size; rewrite ?(norm_size I (size (x :: v) - 1)) by small_size.

Lemma trim_back_cons blank n x v : trim_back blank (S n) (x :: v)
  = if blank (last (x :: v) 0) then trim_back blank n (removelast (x :: v)) else Done (x :: v).
Proof. reflexivity. Qed.

Lemma trim_back_gives P blank n : forall s, Forall P s ->
  gives (fun v => Forall P v /\ (List.length v <= List.length s)%nat) (trim_back blank n s).
Proof.
  induction n as [|n IH]; intros s Hs; [exact Logic.I|]. destruct s as [|x s]; [cbn; split; [constructor|lia]|].
  rewrite trim_back_cons. assert (N : x :: s <> []) by discriminate.
  destruct (last_Forall _ _ N Hs) as [U V]. pose proof (removelast_length _ N) as W.
  destruct (blank _); [|cbn; split; [exact Hs|lia]].
  specialize (IH _ V). destruct (trim_back _ _ _); try exact Logic.I. cbn [gives List.length] in *. split; [tauto|]. lia.
Qed.

Lemma position_find l c : forall n, 0 <= n ->
  position l c n = match SplitJoin.find l c with Some k => n + Z.of_nat k | None => -1 end.
Proof.
  induction l as [|x l IH]; intros n Hn; [reflexivity|]. cbn [position SplitJoin.find].
  destruct (x =? c); [lia|]. rewrite IH by lia. destruct (SplitJoin.find l c); lia.
Qed.
Lemma find_length l c k : SplitJoin.find l c = Some k -> (k < List.length l)%nat.
Proof.
  revert k. induction l as [|x l IH]; intros k H; [discriminate|]. cbn [SplitJoin.find List.length] in *.
  destruct (x =? c); [injection H as <-; lia|]. destruct (SplitJoin.find l c) as [j|]; [|discriminate].
  injection H as <-. specialize (IH j eq_refl). lia.
Qed.
Lemma found_from I l c n : (n <= List.length l)%nat -> size l < 0x8000000000000000 ->
  norm I Size (find l c (Z.of_nat n)) = match SplitJoin.find_from l c n with Some k => Z.of_nat k | None => npos end.
Proof.
  intros Hn Hz. unfold find, find_from. rewrite position_find by lia. rewrite Nat2Z.id.
  destruct (SplitJoin.find (skipn n l) c) as [k|] eqn:E; [|reflexivity].
  apply find_length in E. rewrite skipn_length in E.
  replace (Z.of_nat n + Z.of_nat k <? 0) with false by lia.
  rewrite norm_size by (unfold size in Hz; lia). lia.
Qed.
Lemma among I l c : size l < 0x8000000000000000 ->
  negb (norm I Size (find l c 0) =? norm I Size npos) = match SplitJoin.find l c with Some _ => true | None => false end.
Proof.
  intros Hz. change 0 with (Z.of_nat 0). rewrite found_from by lia. unfold find_from. cbn [skipn].
  change (norm I Size npos) with npos.
  destruct (SplitJoin.find l c) as [k|] eqn:E; [|rewrite Z.eqb_refl; reflexivity].
  apply find_length in E. unfold npos. unfold size in Hz. lia.
Qed.

(* tests: turns the two conditions on the unit x into blank x *)
Ltac trim_proof I fuel s P blank tests :=
  lazymatch goal with |- context [loop (rounds fuel) ?C ?B ?N (("victim", Var (VS ?t s)) :: ?e)] =>
    assert (forall n v, (List.length v < n)%nat -> Forall P v -> size v < 0x8000000000000000 ->
      loop n C B N (("victim", Var (VS t v)) :: e)
      = do r <- trim_back blank (S (List.length v)) v; Done (Next, ("victim", Var (VS t r)) :: e)) as L;
    [ let n := fresh "n" in let IH := fresh "IH" in let v := fresh "v" in let x := fresh "x" in
      let Hn := fresh in let Hv := fresh in let Hz := fresh in let Nil := fresh in let U := fresh in let V := fresh in let W := fresh in
      intros n; induction n as [|n IH]; intros v Hn Hv Hz; [lia|];
      rewrite loop_S; destruct v as [|x v]; go; [reflexivity|];
      size_steps I x v; go; rewrite last_element by discriminate; go;
      rewrite trim_back_cons;
      assert (x :: v <> []) as Nil by discriminate;
      destruct (last_Forall _ _ Nil Hv) as [U V]; pose proof (removelast_length _ Nil) as W;
      let x1 := fresh in let E1 := fresh in remember (last (x :: v) 0) as x1 eqn:E1;
      tests x1; destruct (blank x1); [|reflexivity];
      go; size_steps I x v; go; cbn [snd];
      replace (size (x :: v) - 1 <? 0) with false by small_size;
      replace (size (x :: v) <? size (x :: v) - 1) with false by small_size; cbn [orb]; go;
      rewrite firstn_last; rewrite IH by (try exact V; small_size);
      rewrite W; reflexivity
    | ];
    rewrite L by first [assumption | unfold rounds; lia]; clear L
  end;
  unfold trim, trim_set; cbv zeta;
  let K := fresh in pose proof (trim_back_gives P blank (S (List.length s)) s ltac:(assumption)) as K;
  let r := fresh "r" in
  change (trim_back _ _ s) with (trim_back blank (S (List.length s)) s); destruct (trim_back blank (S (List.length s)) s) as [r| |]; try reflexivity; cbn [gives] in K; cbn [bind]; go;
  lazymatch goal with |- context [loop (rounds fuel) ?C ?B ?N (("victim", Var (VS ?t r)) :: ?e)] =>
    assert (forall v n, (List.length v < n)%nat -> Forall P v ->
      loop n C B N (("victim", Var (VS t v)) :: e)
      = Done (Next, ("victim", Var (VS t (trim_front blank v))) :: e)) as L;
    [ let n := fresh "n" in let IH := fresh "IH" in let v := fresh "v" in let x := fresh "x" in
      let Hn := fresh in let Hv := fresh in let U := fresh in let V := fresh in
      intros v; induction v as [|x v IH]; intros n Hn Hv; (destruct n as [|n]; [cbn in Hn; lia|]);
      rewrite loop_S; go; [reflexivity|];
      rewrite first_element; go; pose proof (Forall_inv Hv) as U; pose proof (Forall_inv_tail Hv) as V;
      cbn [trim_front]; tests x; destruct (blank x); [|reflexivity];
      go; cbn [snd]; 
      replace (size (x :: v) <? 0) with false by small_size; cbn [orb Z.ltb Z.compare]; go;
      change (firstn (Z.to_nat 0) (x :: v) ++ skipn (Z.to_nat (0 + 1)) (x :: v)) with v;
      apply IH; [cbn in Hn; lia | exact V]
    | ];
    rewrite L by first [exact (proj1 K) | unfold rounds; lia]
  end; go; reflexivity.

Section Trim.
Context (I : implementation) (T : UnicodeTables) (fuel d : nat).

Ltac trim_32 s :=
  enter c_trim_sC;
  trim_proof I fuel s unit32 (fun x => x =? 0x20) ltac:(fun x =>
    rewrite (norm_char_small I 32), ?(norm_char32 I 32), ?(norm_uint I 32), (norm_char32 I x), (norm_uint I x) by (unfold unit32 in *; lia)).
Ltac trim_16 s :=
  enter c_trim_sC;
  trim_proof I fuel s unit16 (fun x => x =? 0x20) ltac:(fun x =>
    rewrite (norm_char_small I 32), ?(norm_char16 I 32), ?(norm_int I 32), (norm_char16 I x), (norm_int I x) by (unfold unit16 in *; lia)).
Ltac trim_8 s :=
  enter c_trim_sC;
  trim_proof I fuel s byte (fun x => x =? 0x20) ltac:(fun x =>
    rewrite (norm_char_eq I x 32) by (unfold byte in *; lia)).

Lemma c_trim_32 s : Forall unit32 s -> size s < 0x8000000000000000 -> (List.length s < fuel)%nat ->
  call I T fuel (S d) "trim" [VS Char32 s] = do r <- trim s; Done (VVoid, [Some (VS Char32 r)]).
Proof. intros Hs Hz Hf. trim_32 s. Qed.
Lemma c_trim_16 s : Forall unit16 s -> size s < 0x8000000000000000 -> (List.length s < fuel)%nat ->
  call I T fuel (S d) "trim" [VS Char16 s] = do r <- trim s; Done (VVoid, [Some (VS Char16 r)]).
Proof. intros Hs Hz Hf. trim_16 s. Qed.
Lemma c_trim_8 s : Forall byte s -> size s < 0x8000000000000000 -> (List.length s < fuel)%nat ->
  call I T fuel (S d) "trim" [VS Char s] = do r <- trim s; Done (VVoid, [Some (VS Char r)]).
Proof. intros Hs Hz Hf. trim_8 s. Qed.


Ltac trim_set_proof s sp P facts :=
  enter c_trim_sC_sC;
  trim_proof I fuel s P (fun x => match SplitJoin.find sp x with Some _ => true | None => false end)
    ltac:(fun x => rewrite (among I sp) by assumption; rewrite facts by (unfold unit32, unit16, byte in *; lia)).

Lemma bits_norm32 x : 0 <= x < 0x100000000 -> bits Char32 (norm I Char32 x) = x.
Proof. intros H. rewrite norm_char32 by lia. unfold bits. cbn. apply Z.mod_small. lia. Qed.
Lemma bits_norm16 x : 0 <= x < 0x10000 -> bits Char16 (norm I Char16 x) = x.
Proof. intros H. rewrite norm_char16 by lia. unfold bits. cbn. apply Z.mod_small. lia. Qed.

Lemma c_trim_set_32 s sp : Forall unit32 s -> size s < 0x8000000000000000 -> (List.length s < fuel)%nat -> size sp < 0x8000000000000000 ->
  call I T fuel (S d) "trim" [VS Char32 s; VS Char32 sp] = do r <- trim_set s sp; Done (VVoid, [Some (VS Char32 r); None]).
Proof. intros Hs Hz Hf Hp. trim_set_proof s sp unit32 bits_norm32. Qed.
Lemma c_trim_set_16 s sp : Forall unit16 s -> size s < 0x8000000000000000 -> (List.length s < fuel)%nat -> size sp < 0x8000000000000000 ->
  call I T fuel (S d) "trim" [VS Char16 s; VS Char16 sp] = do r <- trim_set s sp; Done (VVoid, [Some (VS Char16 r); None]).
Proof. intros Hs Hz Hf Hp. trim_set_proof s sp unit16 bits_norm16. Qed.
Lemma c_trim_set_8 s sp : Forall byte s -> size s < 0x8000000000000000 -> (List.length s < fuel)%nat -> size sp < 0x8000000000000000 ->
  call I T fuel (S d) "trim" [VS Char s; VS Char sp] = do r <- trim_set s sp; Done (VVoid, [Some (VS Char r); None]).
Proof. intros Hs Hz Hf Hp. trim_set_proof s sp byte wrap8_id. Qed.
End Trim.
