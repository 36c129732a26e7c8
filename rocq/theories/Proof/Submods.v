(** Lemmas about submods/CMakeLists.txt *)
From Coq Require Import List Bool String Ascii Arith Lia.
From Verif Require Import Gen.TextSubmods Model.Cmake Model.Lists Model.Submods Spec.Submods.
Import ListNotations.
Open Scope string_scope.
Open Scope list_scope.

Definition the_block : block := Eval vm_compute in match read_lists CMakeLists_txt with Some b => b | None => Nil end.
Lemma read_it : read_lists CMakeLists_txt = Some the_block.
Proof. vm_compute. reflexivity. Qed.

Definition options_of (w : above) : list string :=
  if on w "APPLE" then ["-Wno-error"; "-Wno-uninitialized"]
  else if on w "UNIX" then ["-Wno-error"; "-Wno-maybe-uninitialized"] else [].

Lemma run_if : forall f w c x y rest s t s1 r, judged w c s = Some t -> run_block f w (if t then x else y) s = Done s1 -> run_block f w rest s1 = r ->
  run_block (S f) w (If c x y rest) s = r.
Proof. intros f w c x y rest s t s1 r J X R. cbn [run_block]. rewrite J, X. exact R. Qed.

Lemma run_do : forall f w n a rest s s1 r, String.eqb n "foreach" = false -> one_command n (arg_list s a) s = Done s1 -> run_block f w rest s1 = r ->
  run_block (S f) w (Do n a rest) s = r.
Proof. intros f w n a rest s s1 r N X R. cbn [run_block]. rewrite N, X. exact R. Qed.

Lemma run_for : forall f w a rest s v l body rest' s1 r, arg_list s a = v :: l -> body_of rest = Some (body, rest') -> for_each v l body s = Done s1 ->
  run_block f w rest' (back v s s1) = r -> run_block (S f) w (Do "foreach" a rest) s = r.
Proof. intros f w a rest s v l body rest' s1 r A B X R. cbn [run_block]. rewrite A, B, X. exact R. Qed.

Lemma run_nil : forall f w s, run_block (S f) w Nil s = Done s.
Proof. reflexivity. Qed.

Ltac reduced := match goal with |- ?l = _ => let r := eval lazy -[truth replaced] in l in transitivity r; [lazy -[truth replaced]; reflexivity|reflexivity] end.
Ltac known x := transitivity (Some x); [lazy -[truth replaced orb negb]; reflexivity|repeat match goal with H : _ = _ :> bool |- _ => rewrite H end; reflexivity].
Ltac step w := lazymatch goal with
  | |- run_block _ _ Nil _ = _ => apply run_nil
  | |- run_block _ _ (Do "foreach" _ _) _ = _ => eapply run_for; [reduced|reduced|reduced|]
  | |- run_block _ _ (Do _ _ _) _ = _ => eapply run_do; [reflexivity|reduced|]
  | |- run_block _ _ (If [{| quoted := _; pieces := [Lit ?v] |}] _ _ _) _ = _ => eapply run_if; [known (truth (text (has w v)))|cbn [negb orb]; cbv iota|]
  | |- run_block _ _ (If _ _ _ _) _ = _ => eapply run_if; [known (negb (target w "gmock" || target w "gtest"))|cbn [negb orb]; cbv iota|]
  end.

Definition vars_at (w : above) (x : string) : option string :=
  if (String.eqb x "BUILD_SHARED_LIBS" && on w "WIN32")%bool then Some "on" else if String.eqb x "INSTALL_GTEST" then Some "OFF" else has w x.

Lemma run_it : forall w, exists s, run_submods CMakeLists_txt w = Done s /\ options s = options_of w /\
  (if present w then dirs s = [] else exists d, dirs s = [d] /\ name d = "googletest" /\ with_options d = options_of w /\ forall x, with_vars d x = vars_at w x) /\
  (present w = false -> on w "WIN32" = true -> forall x, In x flags -> vars s x = Some (replaced "/MD" "/MT" (text (has w x)))).
Proof.
  intros w. unfold run_submods. rewrite read_it. unfold the_block, options_of, present, vars_at, on.
  destruct (truth (text (has w "WIN32"))) eqn:W; destruct (truth (text (has w "APPLE"))) eqn:A; destruct (truth (text (has w "UNIX"))) eqn:U;
    destruct (target w "gmock") eqn:G; destruct (target w "gtest") eqn:T;
    (eexists; split; [repeat step w|]; split; [reflexivity|]; cbn [orb]; split; [|try discriminate]);
    try reflexivity;
    try (eexists; split; [reflexivity|]; split; [reflexivity|]; split; [reflexivity|];
      intros x; cbn [with_vars with_values value_of news before looked_up]; rewrite ?andb_true_r, ?andb_false_r; reflexivity);
    try (intros _ _ x I; repeat (destruct I as [<-|I]; [reflexivity|]); destruct I).
Qed.

Lemma nothing_occurs : forall a, a <> "" -> ~ occurs a "".
Proof. intros [|c a] N (p & q & E); [congruence|]. destruct p; discriminate. Qed.

Lemma prefix_occurs : forall a s, occurs a s <-> String.prefix a s = true \/ exists c t, s = String c t /\ occurs a t.
Proof.
  intros a s. split.
  - intros (p & q & ->). destruct p as [|c p]; [left|right].
    + induction a as [|d a IH]; cbn; [destruct q; reflexivity|]. destruct (ascii_dec d d); [exact IH|congruence].
    + exists c, (p ++ a ++ q)%string. split; [reflexivity|]. exists p, q. reflexivity.
  - intros [P|(c & t & -> & p & q & ->)].
    + exists "". revert s P. induction a as [|d a IH]; intros s P; [exists s; reflexivity|].
      destruct s as [|e s]; [discriminate|]. cbn in P. destruct (ascii_dec d e) as [->|]; [|discriminate]. destruct (IH s P) as (q & ->). exists q. reflexivity.
    + exists (String c p), q. reflexivity.
Qed.

Lemma other_first : forall fuel s c t, String.length s < fuel -> c <> "/"%char -> replace_all fuel "/MD" "/MT" s = String c t ->
  exists f s', fuel = S f /\ s = String c s' /\ String.length s' < f /\ t = replace_all f "/MD" "/MT" s'.
Proof.
  intros [|fuel] [|d s] c t L N E; [cbn in L; lia|cbn in L; lia|discriminate|]. cbn [replace_all] in E.
  destruct (String.prefix "/MD" (String d s)); [cbn in E; inversion E; congruence|].
  inversion E; subst. exists fuel, s. cbn in L. repeat split; lia.
Qed.

Lemma shorter : forall s n m, String.length (substring n m s) <= String.length s - n.
Proof.
  induction s as [|c s IH]; intros [|n] [|m]; cbn; try lia.
  - specialize (IH 0 m). lia.
  - apply IH.
  - apply IH.
Qed.

Lemma prefix_cons : forall a x b y, String.prefix (String a x) (String b y) = true -> a = b /\ String.prefix x y = true.
Proof. intros a x b y P. cbn in P. destruct (ascii_dec a b); [auto|discriminate]. Qed.

(** Of what is replaced nothing is left, and nothing new comes up. *)
Lemma none_left : forall fuel s, String.length s < fuel -> ~ occurs "/MD" (replace_all fuel "/MD" "/MT" s).
Proof.
  induction fuel as [|fuel IH]; intros s L O; [lia|].
  destruct s as [|c s]; [revert O; apply nothing_occurs; discriminate|].
  cbn [replace_all] in O. destruct (String.prefix "/MD" (String c s)) eqn:P.
  - cbn [append] in O. do 3 (apply prefix_occurs in O; destruct O as [O|(d & t & E & O)]; [cbn in O; discriminate|injection E as <- <-]).
    revert O. apply IH. eapply Nat.le_lt_trans; [apply shorter|]. cbn [String.length] in *. lia.
  - apply prefix_occurs in O. destruct O as [O|(d & t & E & O)].
    + cbn [String.length] in L. apply prefix_cons in O. destruct O as (<- & O).
      destruct (replace_all fuel "/MD" "/MT" s) as [|m r] eqn:R; [discriminate|]. apply prefix_cons in O. destruct O as (<- & O).
      destruct (other_first fuel s "M"%char r) as (f & s' & F & -> & L' & Q); [lia|discriminate|exact R|].
      destruct r as [|k r]; [discriminate|]. apply prefix_cons in O. destruct O as (<- & _).
      destruct (other_first f s' "D"%char r) as (f' & s'' & _ & -> & _); [lia|discriminate|symmetry; exact Q|].
      cbn in P. destruct s''; discriminate.
    + injection E as <- <-. revert O. apply IH. cbn in L. lia.
Qed.

Lemma added_right : forall w, exists s, run_submods CMakeLists_txt w = Done s /\
  if present w then dirs s = [] else
  exists d, dirs s = [d] /\ name d = "googletest" /\ with_vars d "INSTALL_GTEST" = Some "OFF" /\
    (on w "WIN32" = true -> with_vars d "BUILD_SHARED_LIBS" = Some "on") /\
    (forall x, x <> "INSTALL_GTEST" -> (x = "BUILD_SHARED_LIBS" -> on w "WIN32" = false) -> with_vars d x = has w x).
Proof.
  intros w. destruct (run_it w) as (s & R & _ & D & _). exists s. split; [exact R|]. destruct (present w); [exact D|].
  destruct D as (d & D & N & _ & V). exists d. split; [exact D|]. split; [exact N|]. rewrite !V. unfold vars_at. split; [reflexivity|].
  split; [intros ->; reflexivity|]. intros x X B. rewrite V. unfold vars_at. apply String.eqb_neq in X. rewrite X.
  destruct (String.eqb x "BUILD_SHARED_LIBS") eqn:E; [|reflexivity]. apply String.eqb_eq in E. rewrite (B E). reflexivity.
Qed.

Lemma options_right : forall w s d, run_submods CMakeLists_txt w = Done s -> In d (dirs s) ->
  (In "-Wno-error" (with_options d) <-> on w "APPLE" = true \/ on w "UNIX" = true) /\
  (In "-Wno-uninitialized" (with_options d) <-> on w "APPLE" = true) /\
  (In "-Wno-maybe-uninitialized" (with_options d) <-> on w "APPLE" = false /\ on w "UNIX" = true) /\
  (forall o, In o (with_options d) -> In o ["-Wno-error"; "-Wno-uninitialized"; "-Wno-maybe-uninitialized"]).
Proof.
  intros w s d R I. destruct (run_it w) as (s' & R' & _ & D & _). rewrite R in R'. injection R' as <-.
  destruct (present w); [rewrite D in I; destruct I|]. destruct D as (d' & D & _ & O & _). rewrite D in I. destruct I as [<-|[]].
  rewrite O. unfold options_of. destruct (on w "APPLE"), (on w "UNIX"); cbn;
    (split; [|split; [|split]]); try (intros o; tauto); split; intuition congruence.
Qed.

Lemma static_here : forall w s, run_submods CMakeLists_txt w = Done s -> present w = false -> on w "WIN32" = true -> static_runtime (vars s).
Proof.
  intros w s R P W x I O. destruct (run_it w) as (s' & R' & _ & _ & F). rewrite R in R'. injection R' as <-.
  rewrite (F P W x I) in O. revert O. apply none_left. lia.
Qed.

(** Visual Studio with the flags cmake starts with *)
Definition windows : above :=
  {| has := fun x => if String.eqb x "WIN32" then Some "1" else if String.eqb x "CMAKE_CXX_FLAGS_RELEASE" then Some "/MD /O2 /Ob2 /DNDEBUG"
                     else if String.eqb x "CMAKE_CXX_FLAGS_DEBUG" then Some "/MDd /Zi" else None;
     target := fun _ => false |}.
Definition mac : above := {| has := fun x => if String.eqb x "APPLE" then Some "1" else if String.eqb x "UNIX" then Some "1" else None; target := fun _ => false |}.
Definition within : above := {| has := fun x => if String.eqb x "UNIX" then Some "1" else None; target := String.eqb "gtest" |}.

Lemma not_static : exists s d, run_submods CMakeLists_txt windows = Done s /\ on windows "WIN32" = true /\ In d (dirs s) /\ ~ static_runtime (with_vars d).
Proof.
  destruct (run_it windows) as (s & R & _ & D & _). change (present windows) with false in D. destruct D as (d & D & _ & _ & V).
  exists s, d. split; [exact R|]. split; [reflexivity|]. split; [rewrite D; left; reflexivity|]. intros S. apply (S "CMAKE_CXX_FLAGS_RELEASE").
  - right. right. left. reflexivity.
  - rewrite V. exists "", " /O2 /Ob2 /DNDEBUG". reflexivity.
Qed.
