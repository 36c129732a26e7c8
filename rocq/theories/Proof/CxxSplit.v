(* The parsed source of split does what Model/SplitJoin.v says. *)
From Coq Require Import ZArith List Bool String Lia.
From Verif Require Import Machine.
From Verif.Model Require Import Tables Internal Predicate Decode Str CodePage SplitJoin Trim.
From Verif.Cxx Require Import Syntax Semantics Program Values.
From Verif.Gen Require Import Source.
From Verif.Proof Require Import Bits CxxTools CxxRaw CxxInternal CxxDecode CxxPred CxxHelpers CxxChecks CxxUtf8 CxxSugar CxxConvert CxxLower CxxRanges CxxTrim CxxJoin.
Import ListNotations.
Local Open Scope string_scope.
Local Open Scope list_scope.
Local Open Scope Z_scope.

Definition again I R g fuel m a c e :=
  do (r, e) <- scoped (exec I R g fuel a) e;
  match r with
  | Next => loop m (condition I R g c) (scoped (exec I R g fuel a)) (steps I R g []) e
  | Broken => Done (Next, e)
  | Returned v => Done (Returned v, e)
  end.
Lemma exec_again I R g fuel a c e : exec I R g fuel (SDo a c) e = again I R g fuel fuel a c e.
Proof. apply exec_do. Qed.
Ltac call_split r :=
  lazymatch r with
  | exec ?I ?R ?g ?f (SDo ?a ?c) ?e => rewrite (exec_again I R g f a c e)
  | character ?t (VI ?t' ?z) => match goal with H : bits t z = _ |- _ => change r with (Done (bits t z)); rewrite H end
  | _ => call_join r
  end.
Ltac known r ::= call_split r.

Lemma of_nat_npos k (l : list Z) : (k < List.length l)%nat -> size l < 0x8000000000000000 -> (Z.of_nat k =? npos) = false.
Proof. unfold npos, size. lia. Qed.
Lemma find_from_length l c n k : find_from l c n = Some k -> (n <= k < List.length l)%nat.
Proof.
  unfold find_from. destruct (SplitJoin.find (skipn n l) c) as [j|] eqn:E; [|discriminate]. intros [= <-].
  apply find_length in E. rewrite skipn_length in E. lia.
Qed.
(* the positions come in order, each within the text *)
Fixpoint positions (n lo : nat) (bs : list nat) : Prop :=
  match bs with [] => True | b :: bs => (lo <= b < n)%nat /\ positions n (b + 1) bs end.
Lemma breaks_positions src x : forall m k bs, (k < List.length src)%nat ->
  gives (fun r => exists bs', r = bs ++ k :: bs' /\ positions (List.length src) (k + 1) bs') (split_breaks m src x k bs).
Proof.
  induction m as [|m IH]; intros k bs Hk; [exact Logic.I|]. cbn [split_breaks].
  destruct (find_from src x (k + 1)) as [j|] eqn:E; [|exists []; split; [reflexivity|exact Logic.I]].
  apply find_from_length in E. specialize (IH j (bs ++ [k]) ltac:(lia)).
  destruct (split_breaks m src x j (bs ++ [k])) as [r| |]; try exact Logic.I. destruct IH as (bs' & -> & H).
  exists (j :: bs'). rewrite <- app_assoc. split; [reflexivity|]. split; [lia|exact H].
Qed.
Lemma positions_length n : forall bs lo, positions n lo bs -> (lo <= n)%nat -> (List.length bs <= n - lo)%nat.
Proof.
  induction bs as [|b bs IH]; intros lo H Hl; [cbn; lia|]. destruct H as [H1 H2]. specialize (IH _ H2). cbn [List.length]. lia.
Qed.
Lemma vector_set_replace v i x : vector_set v i x = do _ <- element v (Z.of_nat i); Done (replace v i x).
Proof.
  revert i. induction v as [|y v IH]; intros i; [unfold element; destruct (_ <? 0); [|destruct (Z.to_nat _)]; reflexivity|].
  destruct i as [|i]; [reflexivity|]. cbn [vector_set replace]. rewrite IH.
  replace (element (y :: v) (Z.of_nat (S i))) with (element v (Z.of_nat i)); [destruct (element v (Z.of_nat i)); reflexivity|].
  unfold element. replace (Z.of_nat (S i) <? 0) with false by lia. replace (Z.of_nat i <? 0) with false by lia.
  rewrite !Nat2Z.id. reflexivity.
Qed.
Lemma iter_at pre b rest : element (map Z.of_nat (pre ++ b :: rest)) (size pre) = Done (Z.of_nat b).
Proof.
  unfold element, size. replace (Z.of_nat (List.length pre) <? 0) with false by lia. rewrite Nat2Z.id, map_app.
  rewrite nth_error_app2 by (rewrite map_length; lia). rewrite map_length, Nat.sub_diag. reflexivity.
Qed.
Lemma iter_size (l : list nat) : size (map Z.of_nat l) = size l.
Proof. unfold size. rewrite map_length. reflexivity. Qed.
Lemma increment_iter I l n : increment I (VIter l n) = if n <? size l then Done (VIter l (n + 1)) else Undefined.
Proof. reflexivity. Qed.
Lemma fill_last src b i v : (b < List.length src)%nat -> 0 <= i ->
  split_fill src [b] i v = do _ <- element v i; Done (replace v (Z.to_nat i) (skipn (b + 1) src)).
Proof.
  intros Hb Hi. cbn [split_fill]. unfold substr_to_end. replace (List.length src <? b + 1)%nat with false by (symmetry; apply Nat.ltb_ge; lia).
  cbn [bind]. rewrite vector_set_replace, Z2Nat.id by lia. reflexivity.
Qed.
Lemma fill_more src b b2 rest i v : (b < List.length src)%nat -> 0 <= i ->
  split_fill src (b :: b2 :: rest) i v =
  do _ <- element v i; do i' <- int_incr i; split_fill src (b2 :: rest) i' (replace v (Z.to_nat i) (firstn (b2 - (b + 1)) (skipn (b + 1) src))).
Proof.
  intros Hb Hi. change (split_fill src (b :: b2 :: rest) i v) with
    (do piece <- substr src (b + 1) (b2 - (b + 1)); do result <- vector_set v (Z.to_nat i) piece; do i' <- int_incr i; split_fill src (b2 :: rest) i' result).
  unfold substr. replace (List.length src <? b + 1)%nat with false by (symmetry; apply Nat.ltb_ge; lia).
  cbn [bind]. rewrite vector_set_replace, Z2Nat.id by lia. destruct (element v i); reflexivity.
Qed.
Lemma result_over I i : 0x7fffffff <= i -> result I Int (i + 1) = Undefined.
Proof. intros H. unfold result. cbn. replace (i + 1 <? 2147483648) with false by lia. rewrite andb_false_r. reflexivity. Qed.
Lemma fill_over src b b2 rest i v : (b < List.length src)%nat -> 0x7fffffff <= i -> split_fill src (b :: b2 :: rest) i v = Undefined.
Proof.
  intros Hb Hi. rewrite fill_more by lia. unfold int_incr. replace (i <? 0x7fffffff) with false by lia. cbn [bind].
  unfold element. destruct (i <? 0); [reflexivity|]. destruct (nth_error v (Z.to_nat i)); reflexivity.
Qed.
Section Split.
Context (I : implementation) (T : UnicodeTables) (fuel d : nat).
Definition split_end (t : ity) (r : ending * env) : outcome (value * list (option value)) :=
  do v <- match fst r with Returned v => convert I (Some t) TVec v | _ => Undefined end; Done (v, [None; None]).
Lemma enter_split t s x : t = Char \/ t = Char16 \/ t = Char32 ->
  call I T fuel (S d) "split" [VS t s; VI t x]
  = do r <- exec I (call I T fuel d) (G0 T) fuel (f_body c_split) [("src", Var (VS t s)); ("delim", Var (VI t (norm I t x))); ("C", TypeIs t)]; split_end t r.
Proof.
  intros [-> |[-> | ->]]; rewrite call_S.
  all: lazymatch goal with
  | |- context [match external ?T ?f ?vs with Some _ => _ | None => _ end] =>
    change (external T f vs) with (@None value); cbv iota beta;
    resolved c_split; cbv iota beta
  end.
  all: rewrite invoke_eq. 
  all: cbn [f_params c_split]; rewrite !params_cons, params_nil.
  all: generalize (exec I (call I T fuel d) (G0 T) fuel (f_body c_split)); intros X; unfold split_end.
  all: lazymatch goal with |- ?l = bind (?f ?e) ?k =>
    let l' := eval lazy -[norm] in l in let e' := eval lazy -[norm] in e in
    change (l' = bind (f e') k); destruct (f e') as [[[| |?] ?]| |]; reflexivity end.
Qed.

Ltac split_go := unfold f_body, c_split; go.
Lemma c_split_t t s x : t = Char \/ t = Char16 \/ t = Char32 -> bits t (norm I t x) = x -> size s < 0x8000000000000000 -> (List.length s < fuel)%nat ->
  call I T fuel (S d) "split" [VS t s; VI t (norm I t x)] = do r <- split s x; Done (VVec t r, [None; None]).
Proof.
  intros Ht Hx Hz Hf. rewrite enter_split by exact Ht. unfold split. 
  assert (Hn : norm I t (norm I t x) = norm I t x). { destruct Ht as [-> |[-> | ->]]; [apply norm_char_char | |].
    - rewrite !norm_char16_wrap. unfold wrap16. rewrite Z.mod_mod by lia. reflexivity.
    - rewrite !norm_char32_wrap. unfold wrap32. rewrite Z.mod_mod by lia. reflexivity. }
  rewrite Hn. generalize dependent (norm I t x). intros dl Hx Hn.
  split_go. destruct s as [|y s]; go; [reflexivity|].
  remember (y :: s) as src. clear y s Heqsrc.
  pose proof (found_from I src x 0 ltac:(lia) Hz) as F0. change (Z.of_nat 0) with 0 in F0. rewrite !F0.
  unfold find_from. cbn [skipn]. destruct (SplitJoin.find src x) as [k|] eqn:E; [|go; reflexivity].
  apply find_length in E. cbn [Nat.add]. 
  go. change (norm I Size npos) with npos. rewrite !(norm_size I (Z.of_nat k)) by (unfold size in *; lia).
  rewrite (of_nat_npos k src) by assumption. go.
  lazymatch goal with |- context [again I ?R ?g fuel fuel ?a ?c (("breaks", _) :: ("n", _) :: ?e)] =>
    assert (L : forall m m' k bs, (k < List.length src)%nat -> (List.length src - k <= m)%nat -> (List.length src - k <= m')%nat ->
      again I R g fuel m a c (("breaks", Var (VList (map Z.of_nat bs))) :: ("n", Var (VI Size (Z.of_nat k))) :: e)
      = do bs' <- split_breaks m' src x k bs; Done (Next, ("breaks", Var (VList (map Z.of_nat bs'))) :: ("n", Var (VI Size npos)) :: e))
  end.
  { repeat match goal with K := _ |- _ => clear K end. clear E F0 k Hf. intros m m'. revert m. induction m' as [|m' IH]; intros m k bs Hk Hm Hm'; [lia|].
    unfold again. go. rewrite !(norm_size I (Z.of_nat k)) by (unfold size in *; lia).
    rewrite result_size. rewrite !(norm_size I (Z.of_nat k + 1)) by (unfold size in *; lia). go.
    replace (Z.of_nat k + 1) with (Z.of_nat (k + 1)) by lia.
    rewrite found_from by (first [lia | assumption]). cbn [split_breaks].
    destruct m as [|m]; [lia|]. rewrite loop_S. 
    replace (map Z.of_nat bs ++ [Z.of_nat k]) with (map Z.of_nat (bs ++ [k])) by (rewrite map_app; reflexivity).
    destruct (find_from src x (k + 1)) as [j|] eqn:E.
    - apply find_from_length in E. go. change (norm I Size npos) with npos. rewrite !(norm_size I (Z.of_nat j)) by (unfold size in *; lia).
      rewrite (of_nat_npos j src) by (first [lia | assumption]). cbn [negb]. 
      rewrite <- IH with (m := m) by lia. reflexivity.
    - go. reflexivity. }
  change (VList []) with (VList (map Z.of_nat [])). rewrite (L fuel (S (List.length src))) by lia. clear L.
  pose proof (breaks_positions src x (S (List.length src)) k [] E) as P.
  destruct (split_breaks _ src x k []) as [bs| |]; [|reflexivity|reflexivity]. destruct P as (bs' & Eb & P). cbn [app] in Eb. subst bs.
  pose proof (positions_length _ _ _ P ltac:(lia)) as Hl.
  go. assert (Hb : size (map Z.of_nat (k :: bs')) = Z.of_nat (List.length (k :: bs'))) by (unfold size; rewrite map_length; reflexivity).
  rewrite Hb. assert (Hc : Z.of_nat (List.length (k :: bs')) < 0x8000000000000000) by (cbn [List.length]; unfold size in Hz; lia).
  rewrite (norm_size I (Z.of_nat (List.length (k :: bs')))) by lia.
  rewrite result_size. rewrite !(norm_size I (Z.of_nat _ + 1)) by lia. go.
  replace (Z.to_nat (Z.of_nat (List.length (k :: bs')) + 1)) with (List.length (k :: bs') + 1)%nat by lia.
  cbn [map]. 
  change (element (Z.of_nat k :: map Z.of_nat bs') 0) with (Done (Z.of_nat k)). go. cbn [snd].
  rewrite ?(norm_size I (Z.of_nat k)) by (unfold size in *; lia). 
  replace (size src <? 0) with false by (unfold size; lia). 
  replace (Z.of_nat k <? 0) with false by lia. cbn [orb Z.ltb Z.compare]. go.
  replace (Z.to_nat (Z.of_nat (List.length (k :: bs')) + 1)) with (S (List.length (k :: bs')))%nat by lia.
  cbn [hd]. replace (List.length (k :: bs') + 1)%nat with (S (List.length (k :: bs'))) by lia.
  cbn [repeat]. 
  lazymatch goal with |- context [element (?a :: ?l) 0] => change (element (a :: l) 0) with (Done a) end.
  go. replace (Z.to_nat (Z.of_nat (List.length (k :: bs')) + 1)) with (S (List.length (k :: bs')))%nat by lia.
  change (norm I Int (0 + 1)) with 1.
  cbn [bind hd]. change (substr src 0 k) with (Done (firstn k src)). cbn [bind].
  replace (List.length (k :: bs') + 1)%nat with (S (List.length (k :: bs'))) by lia.
  change (int_incr 0) with (Done 1).
  cbn [repeat vector_set]. cbn [bind]. change (piece src 0 (Z.of_nat k)) with (firstn (Z.to_nat (Z.of_nat k)) src). rewrite Nat2Z.id.
  lazymatch goal with |- context [replace (?a :: ?l) (Z.to_nat 0) ?b] => change (replace (a :: l) (Z.to_nat 0) b) with (b :: l) end.
  lazymatch goal with |- context [loop (rounds fuel) ?C ?B ?N (("iBreak", Var (VIter ?l 0)) :: ("iResX", Var (VI Int 1)) :: ("result", Var (VVec ?t _)) :: ?e)] =>
    assert (F : forall rest pre lo m i v, (k :: bs' = pre ++ rest)%list -> positions (List.length src) lo rest -> (List.length rest < m)%nat -> 0 <= i < 0x80000000 ->
      exists j, loop m C B N (("iBreak", Var (VIter l (size pre))) :: ("iResX", Var (VI Int i)) :: ("result", Var (VVec t v)) :: e)
      = do r <- split_fill src rest i v; Done (Next, ("iBreak", Var (VIter l (size l))) :: ("iResX", Var (VI Int j)) :: ("result", Var (VVec t r)) :: e))
  end.
  { repeat match goal with K := _ |- _ => clear K end. rewrite iter_size in *. generalize dependent (k :: bs'). clear k bs' E F0 P Hl. intros all Hb Hc.
    intros rest. induction rest as [|b rest IH]; intros pre lo m i v Hpre Hpos Hm Hi; (destruct m as [|m]; [lia|]).
    - rewrite app_nil_r in Hpre. subst pre. exists i. rewrite loop_S. go. rewrite iter_size, Z.eqb_refl. reflexivity.
    - pose proof (IH (pre ++ [b]) (b + 1)%nat m) as IH'. clear IH.
      rewrite <- app_assoc in IH'. cbn [app] in IH'. destruct Hpos as [Hb1 Hpos]. cbn [List.length] in Hm.
      specialize (fun i v => IH' i v Hpre Hpos ltac:(lia)).
      rewrite size_app in IH'. change (size [b]) with 1 in IH'.
      assert (S1 : (size pre =? size all) = false) by (subst all; rewrite size_app; unfold size; cbn [List.length]; lia).
      assert (S2 : (size pre <? size all) = true) by (subst all; rewrite size_app; unfold size; cbn [List.length]; lia).
      assert (S3 : (size pre + 1 =? size all) = match rest with [] => true | _ => false end)
        by (subst all; rewrite size_app; unfold size; destruct rest; cbn [List.length]; lia).
      assert (At1 : element (map Z.of_nat all) (size pre) = Done (Z.of_nat b)) by (subst all; apply iter_at).
      rewrite loop_S. destruct rest as [|b2 rest].
      + destruct (IH' i (replace v (Z.to_nat i) (skipn (b + 1) src)) Hi) as [j Hj]. exists j. clear IH'.
        go. rewrite iter_size, S1. go. rewrite At1. go.
        rewrite !(norm_size I (Z.of_nat b)) by (unfold size in *; lia).
        rewrite result_size, !(norm_size I (Z.of_nat b + 1)) by (unfold size in *; lia). go.
        rewrite increment_iter, iter_size, S2. go. rewrite iter_size, S3. go. cbn [snd].
        replace (Z.of_nat b + 1 <? 0) with false by lia. replace (size src <? Z.of_nat b + 1) with false by (unfold size; lia). cbn [orb]. go.
        rewrite fill_last by lia. destruct (element v i) as [w| |]; [|reflexivity|reflexivity]. cbn [bind]. go.
        rewrite increment_iter, iter_size, S2. go. replace (Z.to_nat (Z.of_nat b + 1)) with (b + 1)%nat by lia.
        cbn [split_fill bind] in Hj. exact Hj.
      + assert (At2 : element (map Z.of_nat all) (size pre + 1) = Done (Z.of_nat b2)).
        { replace (size pre + 1) with (size (pre ++ [b])) by (rewrite size_app; reflexivity).
          subst all. replace (pre ++ b :: b2 :: rest)%list with ((pre ++ [b]) ++ b2 :: rest)%list by (rewrite <- app_assoc; reflexivity). apply iter_at. }
        destruct Hpos as [Hb2 Hpos].
        destruct (Z.ltb_spec i 0x7fffffff) as [Hi'|Hi'].
        * destruct (IH' (i + 1) (replace v (Z.to_nat i) (firstn (b2 - (b + 1)) (skipn (b + 1) src))) ltac:(lia)) as [j Hj]. exists j. clear IH'.
        go. rewrite iter_size, S1. go. rewrite At1. go.
        rewrite !(norm_size I (Z.of_nat b)) by (unfold size in *; lia).
        rewrite result_size, !(norm_size I (Z.of_nat b + 1)) by (unfold size in *; lia). go. 
        rewrite increment_iter, iter_size, S2. go. rewrite iter_size, S3. go. rewrite At2. go.
        rewrite (norm_size I (Z.of_nat b2)), (norm_size I (Z.of_nat b + 1)), result_size by (unfold size in *; lia).
        rewrite ?(norm_size I (Z.of_nat b2 - (Z.of_nat b + 1))) by (unfold size in *; lia). go. cbn [snd].
        replace (Z.of_nat b + 1 <? 0) with false by lia. replace (size src <? Z.of_nat b + 1) with false by (unfold size; lia). 
        replace (Z.of_nat b2 - (Z.of_nat b + 1) <? 0) with false by lia. cbn [orb]. go.
        rewrite fill_more by lia. destruct (element v i) as [w| |]; [|reflexivity|reflexivity]. cbn [bind]. go.
        rewrite increment_iter, iter_size, S2. go. replace (Z.to_nat (Z.of_nat b + 1)) with (b + 1)%nat by lia.
        unfold piece. replace (Z.to_nat (Z.of_nat b2 - (Z.of_nat b + 1))) with (b2 - (b + 1))%nat by lia.
        replace (Z.to_nat (Z.of_nat b + 1)) with (b + 1)%nat by lia.
        unfold int_incr. replace (i <? 0x7fffffff) with true by lia. rewrite ?(norm_int I (i + 1)) by lia. cbn [bind]. exact Hj.
        * exists 0. clear IH'.
        go. rewrite iter_size, S1. go. rewrite At1. go.
        rewrite !(norm_size I (Z.of_nat b)) by (unfold size in *; lia).
        rewrite result_size, !(norm_size I (Z.of_nat b + 1)) by (unfold size in *; lia). go. 
        rewrite increment_iter, iter_size, S2. go. rewrite iter_size, S3. go. rewrite At2. go.
        rewrite (norm_size I (Z.of_nat b2)), (norm_size I (Z.of_nat b + 1)), result_size by (unfold size in *; lia).
        rewrite ?(norm_size I (Z.of_nat b2 - (Z.of_nat b + 1))) by (unfold size in *; lia). go. cbn [snd].
        replace (Z.of_nat b + 1 <? 0) with false by lia. replace (size src <? Z.of_nat b + 1) with false by (unfold size; lia). 
        replace (Z.of_nat b2 - (Z.of_nat b + 1) <? 0) with false by lia. cbn [orb]. go.
        rewrite result_over, fill_over by lia. reflexivity. }
  destruct (F (k :: bs') [] k fuel 1 (firstn k src :: repeat [] (List.length (k :: bs'))) eq_refl) as [j Hj].
  split; [lia|exact P]. cbn [List.length]; lia. lia.
  unfold rounds. change (size []) with 0 in Hj. cbn [map] in *. rewrite Hj.
  destruct (split_fill _ _ _ _); [|reflexivity|reflexivity]. go. reflexivity.
Qed.

Lemma c_split_8 s x : byte x -> size s < 0x8000000000000000 -> (List.length s < fuel)%nat ->
  call I T fuel (S d) "split" [VS Char s; VI Char (norm I Char x)] = do r <- split s x; Done (VVec Char r, [None; None]).
Proof. intros. apply c_split_t; auto. apply norm_char_bits. assumption. Qed.
Lemma c_split_16 s x : unit16 x -> size s < 0x8000000000000000 -> (List.length s < fuel)%nat ->
  call I T fuel (S d) "split" [VS Char16 s; VI Char16 (norm I Char16 x)] = do r <- split s x; Done (VVec Char16 r, [None; None]).
Proof. intros. apply c_split_t; auto. apply bits_norm16. assumption. Qed.
Lemma c_split_32 s x : unit32 x -> size s < 0x8000000000000000 -> (List.length s < fuel)%nat ->
  call I T fuel (S d) "split" [VS Char32 s; VI Char32 (norm I Char32 x)] = do r <- split s x; Done (VVec Char32 r, [None; None]).
Proof. intros. apply c_split_t; auto. apply bits_norm32. assumption. Qed.
End Split.
