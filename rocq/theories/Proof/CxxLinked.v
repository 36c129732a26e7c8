(* The library linked with the parsed files of source/bits<N> does what it does with the model's tables. *)
From Coq Require Import ZArith List Bool String Lia.
From Verif Require Import Machine.
From Verif.Model Require Import Tables.
From Verif.Cxx Require Import Syntax Semantics Configurations Program Values Linked.
From Verif.Gen Require Import Source.
From Verif.Proof Require Import Bits CxxPure CxxLink.
Import ListNotations.
Local Open Scope string_scope.
Local Open Scope list_scope.
Local Open Scope Z_scope.

(* ---------------------------------------------------------------- what the other part must provide *)

Definition wanted (T : UnicodeTables) : list (fundef * fn) :=
  [(d_isUnicodeAssigned_Char16, FB (t_assigned16 T)); (d_isUnicodeAssigned_Char32, FB (t_assigned32 T));
   (d_isUnicodePrivate_Char16, FB (t_private16 T)); (d_isUnicodePrivate_Char32, FB (t_private32 T));
   (d_isControlChar_Char, FB (t_control8 T)); (d_isControlChar_Char16, FB (t_control16 T)); (d_isControlChar_Char32, FB (t_control32 T));
   (d_isWhitespaceChar_Char, FB (t_space8 T)); (d_isWhitespaceChar_Char16, FB (t_space16 T)); (d_isWhitespaceChar_Char32, FB (t_space32 T));
   (d_internal_turkicToLower, FZ Char32 (t_turkic T)); (d_internal_toLower, FZ Char32 (t_lower T))].

(* a function of one character *)
Definition of_one (d : fundef) : Prop :=
  exists x, f_params d = [{| p_ty := TI (param_type d); p_ref := false; p_name := x; p_default := None |}].

Definition provides (unit : list fundef) (T : UnicodeTables) : Prop :=
  Forall (fun w => exists d', definition_of unit (fst w) = Some d' /\ of_one d' /\ param_type d' = param_type (fst w) /\
            forall I G fuel depth, (List.length unit <= depth)%nat ->
            forall c, 0 <= c <= top (param_type (fst w)) ->
              invoke I G (run I G nothing unit fuel depth) fuel d' [VI (param_type (fst w)) (norm I (param_type (fst w)) c)]
              = Done (fn_value I (snd w) c, [None]) /\ fn_bounded (snd w) c) (wanted T) /\
  forall c, Forall (fun d => definition_of unit d = None) (functions c).

(* ---------------------------------------------------------------- the given functions, by name *)

Definition given : list string :=
  ["isUnicodeAssigned"; "isUnicodePrivate"; "isControlChar"; "isWhitespaceChar"; "internal::turkicToLower"; "internal::toLower"].

Lemma external_none T f vs : ~ In f given -> external T f vs = None.
Proof.
  intros H. unfold external.
  repeat (match goal with |- match ?x with _ => _ end = None => destruct x; try reflexivity end).
  all: exfalso; apply H; unfold given; cbn; tauto.
Qed.

Lemma select_in fs f vs d : select fs f vs = Some d -> In d fs /\ f_name d = f.
Proof.
  unfold select. set (named := filter (fun d => String.eqb (f_name d) f && arity_ok (f_params d) (List.length vs)) fs).
  assert (N : In d named -> In d fs /\ f_name d = f).
  { intros H. apply filter_In in H as [H K]. apply andb_prop in K as [K _]. apply String.eqb_eq in K. auto. }
  intros H. apply N. clear N.
  destruct (filter (fun d => all_exact (f_params d) vs && negb (is_template d)) named) as [|a [|]] eqn:E1; [| |discriminate].
  - destruct (filter (fun d => all_exact (f_params d) vs) named) as [|a [|]] eqn:E2; [| |discriminate].
    + destruct named as [|a [|]] eqn:E3; [discriminate| |].
      * injection H as <-. now left.
      * rewrite <- E3 in *. destruct (filter (fun d => all_viable (f_params d) vs) named) as [|e [|]] eqn:E4; try discriminate.
        injection H as <-. assert (K : In e [e]) by now left. rewrite <- E4 in K. apply filter_In in K. apply K.
    + injection H as <-. assert (K : In a [a]) by now left. rewrite <- E2 in K. apply filter_In in K. apply K.
  - injection H as <-. assert (K : In a [a]) by now left. rewrite <- E1 in K. apply filter_In in K. apply K.
Qed.

Lemma declared_given d : In d (p_decls source) -> In (f_name d) given.
Proof.
  intros H. unfold given.
  repeat (destruct H as [<-|H]; [cbn; tauto|]). destruct H.
Qed.

(* a function of one character sees only what its argument is converted to *)
Lemma invoke_same I G R fuel d v w : of_one d ->
  convert I None (TI (param_type d)) v = convert I None (TI (param_type d)) w ->
  invoke I G R fuel d [v] = invoke I G R fuel d [w].
Proof.
  intros [x P] E. unfold invoke. rewrite P. cbn [deduce p_ty bind_params p_name]. rewrite E. reflexivity.
Qed.
Lemma invoke_undefined I G R fuel d v : of_one d -> convert I None (TI (param_type d)) v = Undefined ->
  invoke I G R fuel d [v] = Undefined.
Proof. intros [x P] E. unfold invoke. rewrite P. cbn [deduce p_ty bind_params p_name]. rewrite E. reflexivity. Qed.

Section Linked.
Context (I : implementation) (G : list (string * value)) (T : UnicodeTables) (unit : list fundef).
Hypothesis HG : forall x v, global G x = Some v -> in_range I v.
Hypothesis HU : provides unit T.

Notation all := (functions (configured I) ++ p_decls source).
Notation given_run := (run I G (external T) all).
Notation linked_run := (run_linked I G (functions (configured I)) (p_decls source) unit).

Lemma defined_here d : In d (functions (configured I)) -> definition_of unit d = None.
Proof. destruct HU as [_ H]. specialize (H (configured I)). rewrite Forall_forall in H. apply H. Qed.

(* a call of a function defined in the source *)
Lemma step_own fuel k k' f vs : (forall g ws, Forall (in_range I) ws -> same (res_ok I) (given_run fuel k g ws) (linked_run fuel k' g ws)) ->
  external T f vs = None -> (forall d, select all f vs = Some d -> In d (functions (configured I))) -> Forall (in_range I) vs ->
  same (res_ok I) (given_run fuel (S k) f vs) (linked_run fuel (S k') f vs).
Proof.
  intros IH E D Hvs. cbn [run run_linked]. rewrite E. destruct (select all f vs) as [d|]; [|apply same_undefined].
  rewrite (defined_here d) by auto. apply same_invoke; assumption.
Qed.

(* a call of a function of the other part *)
Lemma step_given fuel k k' f t v z d x w :
  (List.length unit <= k')%nat -> In (d, x) (wanted T) -> param_type d = t -> select all f [v] = Some d ->
  convert I None (TI t) v = Done (VI t (norm I t z)) -> 0 <= z <= top t -> external T f [v] = Some w ->
  (fn_bounded x z -> w = fn_value I x z) -> same (res_ok I) (given_run fuel (S k) f [v]) (linked_run fuel (S k') f [v]).
Proof.
  intros Hk Hin Ht Hs Hc Hz He Hw. cbn [run run_linked]. rewrite He, Hs.
  destruct HU as [HW _]. rewrite Forall_forall in HW. destruct (HW _ Hin) as (d' & H0 & H1 & H2 & H3). cbn [fst snd] in *. rewrite H0.
  destruct (H3 I G fuel k' Hk z) as [H4 H5]; [congruence|].
  assert (C : convert I None (TI t) (VI t (norm I t z)) = Done (VI t (norm I t z))).
  { assert (t <> Bool) by (intros ->; cbn [convert] in Hc; destruct (truth v); discriminate).
    clear - H. destruct t; try contradiction; cbn [convert int_of bind snd]; now rewrite norm_twice. }
  rewrite (invoke_same I G _ fuel d' v (VI t (norm I t z)) H1) by (rewrite H2, Ht; congruence).
  rewrite Ht in *. rewrite H4. rewrite (Hw H5). apply same_done. split; [|repeat constructor].
  destruct x; [apply norm_ok | exact Logic.I].
Qed.

(* a call that does not compile *)
Lemma step_bad fuel k k' f v d x :
  In (d, x) (wanted T) -> of_one d -> select all f [v] = Some d -> convert I None (TI (param_type d)) v = Undefined ->
  external T f [v] = None -> same (res_ok I) (given_run fuel (S k) f [v]) (linked_run fuel (S k') f [v]).
Proof.
  intros Hin Ho Hs Hc He. cbn [run run_linked]. rewrite He, Hs.
  destruct HU as [HW _]. rewrite Forall_forall in HW. destruct (HW _ Hin) as (d' & H0 & H1 & H2 & _). cbn [fst snd] in *. rewrite H0.
  rewrite (invoke_undefined I G _ fuel d v Ho Hc), (invoke_undefined I G _ fuel d' v H1) by congruence. apply same_undefined.
Qed.

Lemma range16 z : norm I Char16 z = z -> 0 <= z <= top Char16.
Proof. unfold norm, top. cbn. lia. Qed.
Lemma range32 z : norm I Char32 z = z -> 0 <= z <= top Char32.
Proof. unfold norm, top. cbn. lia. Qed.
Lemma pattern8 z : norm I Char z = z -> norm I Char (bits Char z) = z /\ 0 <= bits Char z <= top Char.
Proof.
  intros H. split; [|unfold bits, top; cbn; lia]. rewrite <- H at 2. unfold bits. rewrite Zmod_eq by reflexivity.
  replace (z - z / 2 ^ width Char * 2 ^ width Char) with (z + (- (z / 2 ^ width Char)) * 2 ^ width Char) by ring.
  apply norm_shift.
Qed.
Lemma pattern32 z : 0 <= bits Char32 z <= top Char32.
Proof. unfold bits, top. cbn. lia. Qed.

Ltac at_end := repeat (first [left; reflexivity | right]).
Ltac given t z d x := eapply (step_given _ _ _ _ t _ z d x _); [apply Nat.le_add_l | at_end | reflexivity | case (configured I); reflexivity
  | cbn [convert int_of bind snd]; f_equal; f_equal | | reflexivity | ].
Ltac none_own Own := apply Own; [reflexivity | intros d E; revert E; case (configured I); refine (_ : None = Some d -> _); discriminate].

Lemma bits32_norm z : norm I Char32 z = norm I Char32 (bits Char32 z).
Proof. symmetry. exact (norm_twice I Char32 z). Qed.
Lemma lower_value (l : Z -> Z) z : fn_bounded (FZ Char32 l) z -> VI Char32 (l z) = fn_value I (FZ Char32 l) z.
Proof.
  cbn [fn_bounded fn_value]. unfold top. intros H. f_equal. unfold norm. cbn [is_signed width] in *.
  rewrite Z.mod_small; [reflexivity | lia].
Qed.
Ltac lower d l v Hv :=
  destruct v as [b|t z| | | | | | | | | | |];
  [ given Char32 (if b then 1 else 0) d (FZ Char32 l); [destruct b; unfold top; cbn; lia | apply lower_value]
  | destruct t;
    lazymatch goal with
    | |- context [VI Char32 z] => given Char32 z d (FZ Char32 l); [now apply range32 | apply lower_value]
    | _ => given Char32 (bits Char32 z) d (FZ Char32 l); [apply bits32_norm | apply pattern32 | apply lower_value]
    end
  | eapply (step_bad _ _ _ _ _ d (FZ Char32 l)); [at_end | eexists; reflexivity | case (configured I); reflexivity | reflexivity | reflexivity] .. ].

Lemma linked_same fuel : forall k f vs, Forall (in_range I) vs ->
  same (res_ok I) (given_run fuel k f vs) (linked_run fuel (k + List.length unit) f vs).
Proof.
  induction k as [|k IH]; intros f vs Hvs; [apply same_fuel|]. cbn [Nat.add].
  destruct (in_dec string_dec f given) as [Hf|Hf].
  2:{ apply step_own; [exact IH | now apply external_none | | exact Hvs].
      intros d E. apply select_in in E as [H <-]. apply in_app_or in H as [H|H]; [exact H|]. now apply declared_given in H. }
  destruct vs as [|v [|v2 vs]].
  - apply step_own; [exact IH | repeat (destruct Hf as [<-|Hf]; [reflexivity|]); destruct Hf | | exact Hvs].
    intros d E. exfalso. repeat (destruct Hf as [<-|Hf]; [revert E; case (configured I); refine (_ : None = Some d -> False); discriminate|]). destruct Hf.
  - pose proof (Forall_inv Hvs) as Hv.
    assert (Own : external T f [v] = None -> (forall d, select all f [v] = Some d -> In d (functions (configured I))) ->
      same (res_ok I) (given_run fuel (S k) f [v]) (linked_run fuel (S (k + List.length unit)) f [v]))
      by (intros; apply step_own; assumption).
    destruct Hf as [<-|[<-|[<-|[<-|[<-|[<-|[]]]]]]].
    + destruct v as [|t z| | | | | | | | | | |]; [none_own Own | destruct t; try none_own Own | none_own Own..].
      * apply Own; [reflexivity|]. intros d E. revert E. case (configured I); refine (_ : Some c_isUnicodeAssigned = Some d -> _); intros [= <-]; at_end.
      * given Char16 z d_isUnicodeAssigned_Char16 (FB (t_assigned16 T)); [now apply range16 | reflexivity].
      * given Char32 z d_isUnicodeAssigned_Char32 (FB (t_assigned32 T)); [now apply range32 | reflexivity].
    + destruct v as [|t z| | | | | | | | | | |]; [none_own Own | destruct t; try none_own Own | none_own Own..].
      * apply Own; [reflexivity|]. intros d E. revert E. case (configured I); refine (_ : Some c_isUnicodePrivate = Some d -> _); intros [= <-]; at_end.
      * given Char16 z d_isUnicodePrivate_Char16 (FB (t_private16 T)); [now apply range16 | reflexivity].
      * given Char32 z d_isUnicodePrivate_Char32 (FB (t_private32 T)); [now apply range32 | reflexivity].
    + destruct v as [|t z| | | | | | | | | | |]; [none_own Own | destruct t; try none_own Own | none_own Own..].
      * destruct (pattern8 z Hv) as [E B]. given Char (bits Char z) d_isControlChar_Char (FB (t_control8 T)); [congruence | exact B | reflexivity].
      * given Char16 z d_isControlChar_Char16 (FB (t_control16 T)); [now apply range16 | reflexivity].
      * given Char32 z d_isControlChar_Char32 (FB (t_control32 T)); [now apply range32 | reflexivity].
    + destruct v as [|t z| | | | | | | | | | |]; [none_own Own | destruct t; try none_own Own | none_own Own..].
      * destruct (pattern8 z Hv) as [E B]. given Char (bits Char z) d_isWhitespaceChar_Char (FB (t_space8 T)); [congruence | exact B | reflexivity].
      * given Char16 z d_isWhitespaceChar_Char16 (FB (t_space16 T)); [now apply range16 | reflexivity].
      * given Char32 z d_isWhitespaceChar_Char32 (FB (t_space32 T)); [now apply range32 | reflexivity].
    + lower d_internal_turkicToLower (t_turkic T) v Hv.
    + lower d_internal_toLower (t_lower T) v Hv.
  - apply step_own; [exact IH | | | exact Hvs].
    + repeat (destruct Hf as [<-|Hf]; [destruct v as [|[]| | | | | | | | | | |]; reflexivity|]). destruct Hf.
    + intros d E. exfalso. repeat (destruct Hf as [<-|Hf]; [revert E; case (configured I); refine (_ : None = Some d -> False); discriminate|]). destruct Hf.
Qed.
End Linked.

(* from the translation of each function to what is provided; [is]: where the wanted functions are *)
Lemma provides_from unit ds T is : Forall (found nothing unit) unit -> compiles [] unit ds ->
  Forall2 (fun w i => exists d', definition_of unit (fst w) = Some d' /\ of_one d' /\
            nth_error (entries unit ds) i = Some (f_name d', param_type d', snd w) /\ param_type d' = param_type (fst w))
    (wanted T) is ->
  Forall (fun d => definition_of unit d = None) (p_funs source) -> (forall c, Forall (fun d => definition_of unit d = None) (own c)) ->
  provides unit T.
Proof.
  intros HF HC HW HS HO. split; [|intros c; apply Forall_app; split; [exact HS | apply HO]]. revert HW. generalize (wanted T) is. clear is.
  intros l is HW. induction HW as [|w i l is (d' & D & O & E & P) _ IH]; constructor; [|exact IH].
  exists d'. split; [exact D|]. split; [exact O|]. split; [exact P|]. intros I G fuel depth Hd c Hc.
  assert (HI : In d' unit) by (exact (proj1 (find_some _ _ D))).
  pose proof (compiles_sound I G nothing unit unit ds [] 0 HF HC) as K.
  assert (K0 : defined_from I G nothing unit 0 []) by (intros ? ? ? ? ? ? []).
  specialize (K K0 fuel (S depth) ltac:(lia) _ _ _ (nth_error_In _ _ E)). rewrite <- P in *. specialize (K c Hc).
  rewrite Forall_forall in HF. destruct (HF _ HI (norm I (param_type d') c)) as [_ S]. cbn [run] in K.
  change (nothing (f_name d') [VI (param_type d') (norm I (param_type d') c)]) with (@None value) in K. cbv iota in K.
  rewrite S in K. exact K.
Qed.

Lemma source_globals_ok I v x w : global (linked_globals I v) x = Some w -> in_range I w.
Proof.
  assert (E : forall l z g, Forall (fun p => in_range I (snd p)) g -> Forall (fun p => in_range I (snd p)) (enumerators I l z g)).
  { induction l as [|[y o] l IH]; intros z g Hg; [exact Hg|]. cbn [enumerators]. apply IH. constructor; [exact Logic.I | exact Hg]. }
  assert (A : Forall (fun p => in_range I (snd p)) (linked_globals I v)).
  { constructor; [destruct v; exact Logic.I|]. apply Forall_app. split; [|apply E; constructor].
    apply Forall_forall. intros p Hp. apply in_map_iff in Hp as (d & <- & _). exact Logic.I. }
  induction A as [|[y u] l Hu Hl IH]; [discriminate|]. cbn [global]. destruct (String.eqb x y); [|exact IH].
  intros [= ->]. exact Hu.
Qed.
Lemma linked_globals_eq I v : linked_globals I v = G I (tables v).
Proof. unfold linked_globals, G. f_equal. destruct v; reflexivity. Qed.

Lemma linked_finishes {A} (k : value * list (option value) -> outcome A) I v f args r n :
  provides (bits_of v) (tables v) -> Forall (in_range I) args -> r <> OutOfFuel ->
  (forall fuel depth, (n <= fuel)%nat -> (n <= depth)%nat -> (do a <- call I (tables v) fuel depth f args; k a) = r) ->
  forall fuel depth, (n + List.length (bits_of v) <= fuel)%nat -> (n + List.length (bits_of v) <= depth)%nat ->
  (do a <- linked I v fuel depth f args; k a) = r.
Proof.
  intros HU HA HR H fuel depth Hf Hd.
  pose proof (H fuel (depth - List.length (bits_of v))%nat ltac:(lia) ltac:(lia)) as K. unfold call in K.
  unfold linked. rewrite linked_globals_eq.
  destruct (linked_same I (G I (tables v)) (tables v) (bits_of v)) with (fuel := fuel) (k := (depth - List.length (bits_of v))%nat) (f := f) (vs := args)
    as [E|[E _]]; [intros x w; rewrite <- linked_globals_eq; apply source_globals_ok | exact HU | exact HA | |].
  - rewrite E in K. cbn [bind] in K. congruence.
  - rewrite E in K. replace (depth - List.length (bits_of v) + List.length (bits_of v))%nat with depth in K by lia. exact K.
Qed.
