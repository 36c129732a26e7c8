(** Lemmas about FindASan.cmake *)
From Coq Require Import List Bool String Ascii.
From Verif Require Import Gen.TextAsan Model.Cmake Model.Lists Model.Submods Model.Asan Spec.Asan.
Import ListNotations.
Open Scope string_scope.
Open Scope list_scope.

Definition the_block : block := Eval vm_compute in match read_lists FindASan_cmake with Some b => b | None => Nil end.
Lemma read_it : read_lists FindASan_cmake = Some the_block.
Proof. vm_compute. reflexivity. Qed.

Lemma asan_if : forall f w c x y rest s t s1 r, asan_judged c s = Some t -> asan_block f w (if t then x else y) s = On s1 -> asan_block f w rest s1 = r ->
  asan_block (S f) w (If c x y rest) s = r.
Proof. intros f w c x y rest s t s1 r J X R. cbn [asan_block]. rewrite J, X. exact R. Qed.

Lemma asan_stop : forall f w c x y rest s t s1, asan_judged c s = Some t -> asan_block f w (if t then x else y) s = Returned s1 ->
  asan_block (S f) w (If c x y rest) s = Returned s1.
Proof. intros f w c x y rest s t s1 J X. cbn [asan_block]. rewrite J, X. reflexivity. Qed.

Lemma asan_return : forall f w a rest s, asan_block (S f) w (Do "return" a rest) s = Returned s.
Proof. reflexivity. Qed.

Lemma asan_nil : forall f w s, asan_block (S f) w Nil s = On s.
Proof. reflexivity. Qed.

Lemma asan_do : forall f w n a rest s s1 r, asan_command w n (arg_list s a) s = On s1 -> asan_block f w rest s1 = r -> asan_block (S f) w (Do n a rest) s = r.
Proof. intros f w n a rest s s1 r X R. cbn [asan_block]. rewrite X. exact R. Qed.

Definition flags_of (f : string) : list (string * option string) :=
  [("CMAKE_SHARED_LINKER_FLAGS_ASAN", Some f); ("CMAKE_EXE_LINKER_FLAGS_ASAN", Some f);
   ("CMAKE_CXX_FLAGS_ASAN", Some ("-O1 -g " ++ f ++ " -fno-omit-frame-pointer -fno-optimize-sibling-calls")%string);
   ("CMAKE_C_FLAGS_ASAN", Some ("-O1 -g " ++ f ++ " -fno-omit-frame-pointer -fno-optimize-sibling-calls")%string);
   ("HAVE_ADDRESS_SANITIZER", Some "TRUE"); ("HAVE_ADDRESS_SANITIZER", Some "FALSE")].

Lemma append_nil : forall s : string, (s ++ "")%string = s.
Proof. induction s as [|c s IH]; cbn; [reflexivity|]. rewrite IH. reflexivity. Qed.

(** What is known of the check: before it, or from the compiler *)
Definition checked (w : before_it) : option string :=
  match given w "HAVE_FLAG_SANITIZE_ADDRESS" with Some v => Some v | None => Some (if able w then "1" else "") end.

Definition news_of (w : before_it) : list (string * option string) :=
  let c := match given w "HAVE_FLAG_SANITIZE_ADDRESS" with Some _ => [] | None => [("HAVE_FLAG_SANITIZE_ADDRESS", checked w)] end in
  let l := ("CMAKE_REQUIRED_FLAGS", None) :: c ++ [("CMAKE_REQUIRED_FLAGS", Some "-Werror -fsanitize=address")] in
  if truth (text (checked w)) then flags_of sanitizer ++ ("ADDRESS_SANITIZER_FLAG", Some sanitizer) :: l
  else if truth (text (given w "ADDRESS_SANITIZER_FLAG")) then flags_of (text (given w "ADDRESS_SANITIZER_FLAG")) ++ l
  else l.

Ltac value := lazy -[truth given accepts];
  repeat match goal with H : ?l = _ |- context [?l] => lazymatch l with given _ _ => rewrite H | accepts _ _ _ => rewrite H | truth _ => rewrite H end end;
  change (truth "1") with true; change (truth "") with false; change (truth "-fsanitize=address") with true; cbv iota; reflexivity.
Ltac step := lazymatch goal with
  | |- asan_block _ _ Nil _ = _ => apply asan_nil
  | |- asan_block _ _ (Do "return" _ _) _ = _ => apply asan_return
  | |- asan_block _ _ (Do _ _ _) _ = _ => eapply asan_do; [value|]
  | |- asan_block _ _ (If _ _ _ _) _ = _ => first [ eapply asan_if; [value|cbv iota; solve [repeat step]|] | eapply asan_stop; [value|cbv iota; solve [repeat step]] ]
  end.

Lemma run_it : forall w, exists v, run_asan FindASan_cmake w = Some v /\ forall x, v x = looked_up (news_of w) (given w) x.
Proof.
  intros w. unfold run_asan. rewrite read_it. unfold the_block, news_of, checked, able, sanitizer.
  destruct (given w "HAVE_FLAG_SANITIZE_ADDRESS") as [h|] eqn:H; cbn [text].
  - destruct (truth h) eqn:T.
    + match goal with |- exists v, match ?b with _ => _ end = _ /\ _ => eassert (E : b = _) by (repeat step) end.
      rewrite E. eexists. split; [reflexivity|]. reflexivity.
    + destruct (truth (text (given w "ADDRESS_SANITIZER_FLAG"))) eqn:F.
      * destruct (given w "ADDRESS_SANITIZER_FLAG") as [f|] eqn:G; [|discriminate F]. cbn [text] in *.
        match goal with |- exists v, match ?b with _ => _ end = _ /\ _ => eassert (E : b = _) by (repeat step) end.
        rewrite E. eexists. split; [reflexivity|]. reflexivity.
      * assert (F' : truth (match given w "ADDRESS_SANITIZER_FLAG" with Some v => v | None => "" end) = false) by exact F.
        match goal with |- exists v, match ?b with _ => _ end = _ /\ _ => eassert (E : b = _) by (repeat step) end.
        rewrite E. eexists. split; [reflexivity|]. reflexivity.
  - destruct (accepts w "-Werror -fsanitize=address" "-fsanitize=address") eqn:T.
    + change (truth "1") with true.
      match goal with |- exists v, match ?b with _ => _ end = _ /\ _ => eassert (E : b = _) by (repeat step) end.
      rewrite E. eexists. split; [reflexivity|]. reflexivity.
    + change (truth "") with false.
      destruct (truth (text (given w "ADDRESS_SANITIZER_FLAG"))) eqn:F.
      * destruct (given w "ADDRESS_SANITIZER_FLAG") as [f|] eqn:G; [|discriminate F]. cbn [text] in *.
        match goal with |- exists v, match ?b with _ => _ end = _ /\ _ => eassert (E : b = _) by (repeat step) end.
        rewrite E. eexists. split; [reflexivity|]. reflexivity.
      * assert (F' : truth (match given w "ADDRESS_SANITIZER_FLAG" with Some v => v | None => "" end) = false) by exact F.
        match goal with |- exists v, match ?b with _ => _ end = _ /\ _ => eassert (E : b = _) by (repeat step) end.
        rewrite E. eexists. split; [reflexivity|]. reflexivity.
Qed.

Lemma found_right : forall w, first_time w -> able w = true -> exists v, run_asan FindASan_cmake w = Some v /\
  v "HAVE_ADDRESS_SANITIZER" = Some "TRUE" /\ forall x, In x asan_flags -> has_option sanitizer (text (v x)).
Proof.
  intros w (H & F) A. destruct (run_it w) as (v & R & V). exists v. split; [exact R|].
  unfold news_of, checked in V. rewrite H, A in V. change (truth (text (Some "1"))) with true in V. cbv iota in V. split; [rewrite V; reflexivity|].
  intros x I. rewrite V. repeat (destruct I as [<-|I]; [cbn; tauto|]). destruct I.
Qed.

Lemma unable_right : forall w, first_time w -> able w = false -> exists v, run_asan FindASan_cmake w = Some v /\
  forall x, ~ In x ["CMAKE_REQUIRED_FLAGS"; "HAVE_FLAG_SANITIZE_ADDRESS"] -> v x = given w x.
Proof.
  intros w (H & F) A. destruct (run_it w) as (v & R & V). exists v. split; [exact R|].
  unfold news_of, checked in V. rewrite H, A, F in V. change (truth (text (Some ""))) with false in V. cbv iota in V.
  intros x I. rewrite V. cbn [app looked_up].
  destruct (String.eqb x "CMAKE_REQUIRED_FLAGS") eqn:E; [apply String.eqb_eq in E; subst; exfalso; apply I; left; reflexivity|].
  destruct (String.eqb x "HAVE_FLAG_SANITIZE_ADDRESS") eqn:E'; [apply String.eqb_eq in E'; subst; exfalso; apply I; right; left; reflexivity|].
  reflexivity.
Qed.

Lemma looked_up_other : forall l o x, (forall n v, In (n, v) l -> x <> n) -> looked_up l o x = o x.
Proof.
  induction l as [|(n, v) l IH]; intros o x N; [reflexivity|]. cbn [looked_up].
  rewrite (proj2 (String.eqb_neq x n) (N n v (or_introl eq_refl))). apply IH. intros m u I. apply (N m u). right. exact I.
Qed.

Lemma news_own : forall w n v, In (n, v) (news_of w) -> In n own.
Proof.
  intros w n v I.
  assert (F : forallb (fun p => existsb (String.eqb (fst p)) own) (news_of w) = true).
  { unfold news_of. destruct (given w "HAVE_FLAG_SANITIZE_ADDRESS"), (truth (text (checked w))), (truth (text (given w "ADDRESS_SANITIZER_FLAG"))); reflexivity. }
  rewrite forallb_forall in F. specialize (F (n, v) I). apply existsb_exists in F. destruct F as (m & J & E). apply String.eqb_eq in E. cbn in E. subst. exact J.
Qed.

Lemma kept_right : forall w, exists v, run_asan FindASan_cmake w = Some v /\ forall x, ~ In x own -> v x = given w x.
Proof.
  intros w. destruct (run_it w) as (v & R & V). exists v. split; [exact R|]. intros x N. rewrite V. apply looked_up_other.
  intros n u I ->. apply N. exact (news_own w n u I).
Qed.

Lemma told_right : forall w, first_time w -> truth (text (given w "HAVE_ADDRESS_SANITIZER")) = false ->
  exists v, run_asan FindASan_cmake w = Some v /\ truth (text (v "HAVE_ADDRESS_SANITIZER")) = able w.
Proof.
  intros w F N. destruct (able w) eqn:A.
  - destruct (found_right w F A) as (v & R & T & _). exists v. split; [exact R|]. rewrite T. reflexivity.
  - destruct (unable_right w F A) as (v & R & V). exists v. split; [exact R|]. rewrite V; [exact N|]. intros [E|[E|[]]]; discriminate E.
Qed.

Definition compiler (l : list (string * string)) (b : bool) : before_it :=
  {| given := fun x => match find (fun p => String.eqb (fst p) x) l with Some (_, y) => Some y | None => None end; accepts := fun r f => b && String.eqb f "-fsanitize=address" |}.
Definition clang : before_it := compiler [("CMAKE_REQUIRED_FLAGS", "-m32")] true.
Definition stale : before_it := compiler [("HAVE_ADDRESS_SANITIZER", "TRUE")] false.

Lemma told_fails : exists w v, first_time w /\ run_asan FindASan_cmake w = Some v /\ truth (text (v "HAVE_ADDRESS_SANITIZER")) <> able w.
Proof.
  destruct (unable_right stale) as (v & R & V); [split; reflexivity|reflexivity|]. exists stale, v. split; [split; reflexivity|]. split; [exact R|].
  rewrite V; [discriminate|]. intros [E|[E|[]]]; discriminate E.
Qed.

Lemma required_lost : forall w, exists v, run_asan FindASan_cmake w = Some v /\ v "CMAKE_REQUIRED_FLAGS" = None.
Proof.
  intros w. destruct (run_it w) as (v & R & V). exists v. split; [exact R|]. rewrite V. unfold news_of.
  destruct (truth (text (checked w))), (truth (text (given w "ADDRESS_SANITIZER_FLAG"))); reflexivity.
Qed.
